(** * Sessions and the top-level parser (lib.rs) *)
From Coq Require Import List NArith Bool Ascii String.
From Verif Require Import Str Num Net Types Ext Show Address AttrParse Media.
Import ListNotations.
Open Scope N_scope.
Open Scope list_scope.

Section WithExt.
Context {E : Ext}.

(** ** Line parsers *)

(** lib.rs:398-404 *)
Definition parse_session_name (v : str) : res ierr sdp_type := Ok (TySession v).

(** lib.rs:406-415 *)
Definition parse_version (v : str) : res ierr sdp_type :=
  ver <- p_u64 v ;;
  if negb (ver =? 0)
  then Err (genf "version type contains unsupported value {}" [show_N ver])
  else Ok (TyVersion ver).

(** lib.rs:417-480; tokens after the sixth are ignored. *)
Definition parse_origin (v : str) : res ierr sdp_type :=
  match split_whitespace v with
  | [] => Err (gen "Origin type is missing username token")
  | username :: r =>
  match r with
  | [] => Err (gen "Origin type is missing session ID token")
  | t1 :: r =>
  session_id <- p_u64 t1 ;;
  match r with
  | [] => Err (gen "Origin type is missing session version token")
  | t2 :: r =>
  session_version <- p_u64 t2 ;;
  match r with
  | [] => Err (gen "Origin type is missing network type token")
  | t3 :: r =>
  _ <- parse_network_type t3 ;;
  match r with
  | [] => Err (gen "Origin type is missing address type token")
  | t4 :: r =>
  addrtype <- parse_address_type t4 ;;
  match r with
  | [] => Err (gen "Origin type is missing IP address token")
  | t5 :: _ =>
  unicast_addr <- typed_address_try_from addrtype t5 ;;
  if negb (addr_type_eqb addrtype (typed_addr_type unicast_addr))
  then Err (gen "Origin addrtype does not match address.")
  else Ok (TyOrigin {| o_username := username; o_session_id := session_id;
                       o_session_version := session_version;
                       o_unicast_addr := unicast_addr |})
  end end end end end end.

(** lib.rs:482-510 *)
Definition parse_connection (v : str) : res ierr sdp_type :=
  let cv := split_whitespace v in
  if negb (Nat.eqb (List.length cv) 3)
  then Err (gen "connection attribute must have three tokens")
  else
    t0 <- idx cv 0 ;;
    _ <- parse_network_type t0 ;;
    t1 <- idx cv 1 ;;
    addrtype <- parse_address_type t1 ;;
    t2 <- idx cv 2 ;;
    ' (addr_token, ttl, amount) <-
      (if contains c_slash t2 then
         let addr_tokens := split c_slash t2 in
         amount <- (if Nat.leb 3 (List.length addr_tokens)
                    then a <- idx addr_tokens 2 ;; x <- p_u32 a ;; Ok (Some x)
                    else Ok None) ;;
         a1 <- idx addr_tokens 1 ;;
         ttl <- p_u8 a1 ;;
         a0 <- idx addr_tokens 0 ;;
         Ok (a0, Some ttl, amount)
       else Ok (t2, None, None)) ;;
    address <- typed_address_try_from addrtype addr_token ;;
    Ok (TyConnection {| conn_address := address; conn_ttl := ttl; conn_amount := amount |}).

(** lib.rs:512-528 *)
Definition parse_bandwidth (v : str) : res ierr sdp_type :=
  let bv := split c_colon v in
  if negb (Nat.eqb (List.length bv) 2)
  then Err (gen "bandwidth attribute must have two tokens")
  else
    t1 <- idx bv 1 ;;
    n <- p_u32 t1 ;;
    t0 <- idx bv 0 ;;
    let u := to_upper t0 in
    Ok (TyBandwidth
          (if str_eqb u (lit "AS") then BwAs n
           else if str_eqb u (lit "CT") then BwCt n
           else if str_eqb u (lit "TIAS") then BwTias n
           else BwUnknown t0 n)).

(** lib.rs:530-542 *)
Definition parse_timing (v : str) : res ierr sdp_type :=
  let tv := split_whitespace v in
  if negb (Nat.eqb (List.length tv) 2)
  then Err (gen "timing attribute must have two tokens")
  else
    t0 <- idx tv 0 ;;
    start <- p_u64 t0 ;;
    t1 <- idx tv 1 ;;
    stop <- p_u64 t1 ;;
    Ok (TyTiming {| t_start := start; t_stop := stop |}).

(** The dispatch on the line type (lib.rs:601-634): [v] is the trimmed value,
    [raw] the untrimmed one. *)
Definition parse_value (line_type v raw : str) : res ierr sdp_type :=
  if str_eqb line_type (lit "a") then parse_attribute v
  else if str_eqb line_type (lit "b") then parse_bandwidth v
  else if str_eqb line_type (lit "c") then parse_connection v
  else if str_eqb line_type (lit "e") then Err (genf "unsupported type email: {}" [v])
  else if str_eqb line_type (lit "i") then Err (genf "unsupported type information: {}" [v])
  else if str_eqb line_type (lit "k") then Err (genf "unsupported insecure key exchange: {}" [v])
  else if str_eqb line_type (lit "m") then parse_media v
  else if str_eqb line_type (lit "o") then parse_origin v
  else if str_eqb line_type (lit "p") then Err (genf "unsupported type phone: {}" [v])
  else if str_eqb line_type (lit "r") then Err (genf "unsupported type repeat: {}" [v])
  else if str_eqb line_type (lit "s") then parse_session_name raw
  else if str_eqb line_type (lit "t") then parse_timing v
  else if str_eqb line_type (lit "u") then Err (genf "unsupported type uri: {}" [v])
  else if str_eqb line_type (lit "v") then parse_version v
  else if str_eqb line_type (lit "z") then Err (genf "unsupported type zone: {}" [v])
  else Err (gen "unknown sdp type").

(** The error classification (lib.rs:640-657). *)
Definition line_error (line : str) (n : nat) (e : ierr) : perr :=
  match e with
  | EUnsupported _ => PUnsupported e line n
  | _ => PLine e line n
  end.

(** [parse_sdp_line] (lib.rs:544-658). *)
Definition parse_sdp_line (line : str) (n : nat) : res perr sdp_line :=
  let fail e : res perr sdp_line := Err (PLine e line n) in
  if negb (contains c_eq line) then fail (gen "missing = character in line")
  else
    match splitn 2 c_eq line with
    | [] => fail (gen "missing type")
    | t :: rest =>
        let trimmed := trim t in
        if 1 <? byte_len trimmed then fail (gen "type too long")
        else if is_empty trimmed then fail (gen "type is empty")
        else
          let line_type := to_lower trimmed in
          match rest with
          | [] => fail (gen "missing value")
          | v :: _ =>
              let tv := trim v in
              if is_empty tv && negb (str_eqb line_type (lit "s"))
              then fail (gen "value is empty")
              else
                match parse_value line_type tv v with
                | Ok ty => Ok {| l_number := n; l_type := ty; l_text := line |}
                | Err e => Err (line_error line n e)
                | Panic => Panic
                end
          end
    end.

(** ** Sessions *)

(** [SdpSession::new] (lib.rs:239-255). *)
Definition session_new (version : N) (o : origin) (name : str) : session :=
  {| s_version := version; s_origin := o;
     s_session := if is_empty (trim name) then None else Some (trim name);
     s_connection := None; s_bandwidth := []; s_timing := None; s_attribute := [];
     s_media := []; s_warnings := [] |}.

(** Field updates: [set_connection], [add_bandwidth], [set_timing], [extend_media]
    (lib.rs:280-290, :302-304), and the assignments to [attribute] and [warnings]. *)
Definition session_set_connection (c : connection) (s : session) : session :=
  {| s_version := s_version s; s_origin := s_origin s; s_session := s_session s;
     s_connection := Some c; s_bandwidth := s_bandwidth s; s_timing := s_timing s;
     s_attribute := s_attribute s; s_media := s_media s; s_warnings := s_warnings s |}.
Definition session_add_bandwidth (b : bandwidth) (s : session) : session :=
  {| s_version := s_version s; s_origin := s_origin s; s_session := s_session s;
     s_connection := s_connection s; s_bandwidth := s_bandwidth s ++ [b];
     s_timing := s_timing s; s_attribute := s_attribute s; s_media := s_media s;
     s_warnings := s_warnings s |}.
Definition session_set_timing (t : timing) (s : session) : session :=
  {| s_version := s_version s; s_origin := s_origin s; s_session := s_session s;
     s_connection := s_connection s; s_bandwidth := s_bandwidth s; s_timing := Some t;
     s_attribute := s_attribute s; s_media := s_media s; s_warnings := s_warnings s |}.
Definition session_extend_media (l : list media) (s : session) : session :=
  {| s_version := s_version s; s_origin := s_origin s; s_session := s_session s;
     s_connection := s_connection s; s_bandwidth := s_bandwidth s; s_timing := s_timing s;
     s_attribute := s_attribute s; s_media := s_media s ++ l; s_warnings := s_warnings s |}.
Definition session_with_attributes (l : list attr) (s : session) : session :=
  {| s_version := s_version s; s_origin := s_origin s; s_session := s_session s;
     s_connection := s_connection s; s_bandwidth := s_bandwidth s; s_timing := s_timing s;
     s_attribute := l; s_media := s_media s; s_warnings := s_warnings s |}.
Definition session_with_warnings (w : list perr) (s : session) : session :=
  {| s_version := s_version s; s_origin := s_origin s; s_session := s_session s;
     s_connection := s_connection s; s_bandwidth := s_bandwidth s; s_timing := s_timing s;
     s_attribute := s_attribute s; s_media := s_media s; s_warnings := w |}.

(** [add_attribute] (lib.rs:292-300). *)
Definition session_add_attribute (a : attr) (s : session) : session * res ierr unit :=
  if negb (allowed_at_session_level a)
  then (s, Err (genf "{} not allowed at session level" [show_attr a]))
  else (session_with_attributes (s_attribute s ++ [a]) s, Ok tt).

(** [get_attribute] (lib.rs:340-344). *)
Definition session_get_attribute (t : attr_type) (s : session) : option attr :=
  find (fun a => attr_type_eqb (attr_type_of a) t) (s_attribute s).

(** [parse_session_vector] (lib.rs:306-338): the session left behind and the
    result. *)
Fixpoint parse_session_vector (s : session) (lines : list sdp_line) : session * res perr unit :=
  match lines with
  | [] => (s, Ok tt)
  | l :: rest =>
      match l_type l with
      | TyAttribute a =>
          match session_add_attribute a s with
          | (s', Ok _) => parse_session_vector s' rest
          | (s', Err e) => (s', Err (PSequence (show_ierr e) (l_number l)))
          | (s', Panic) => (s', Panic)
          end
      | TyBandwidth b => parse_session_vector (session_add_bandwidth b s) rest
      | TyTiming t => parse_session_vector (session_set_timing t s) rest
      | TyConnection c => parse_session_vector (session_set_connection c s) rest
      | TyOrigin _ | TySession _ | TyVersion _ =>
          (s, Err (PSequence (fmt "version, origin or session at wrong level" []) (l_number l)))
      | TyMedia _ =>
          (s, Err (PSequence (fmt "media line not allowed in session parser" []) (l_number l)))
      end
  end.

(** [add_media] (lib.rs:346-373). *)
Definition add_media (mt : media_value) (direction : attr) (port : N) (proto : protocol_value)
  (addr : typed_address) (s : session) : session * res ierr unit :=
  let m := media_new {| ml_media := mt; ml_port := port; ml_port_count := 1;
                        ml_proto := proto; ml_formats := Integers [] |} in
  match Media.add_attribute direction m with
  | (m, Ok _) =>
      let m := set_media_connection {| conn_address := addr; conn_ttl := None;
                                       conn_amount := None |} m in
      (session_extend_media [m] s, Ok tt)
  | (_, Err e) => (s, Err e)
  | (_, Panic) => (s, Panic)
  end.

(** ** [sanity_check_sdp_session] (lib.rs:660-766) *)
Definition seq_error {A} (m : string) : res perr A := Err (PSequence (fmt m []) 0).
Definition is_some {A} (o : option A) : bool := match o with Some _ => true | None => false end.

(** The rids of a section and those of one direction (lib.rs:701-722). *)
Definition rids_of (m : media) : list rid :=
  flat_map (fun a => match a with ARid r => [r] | _ => [] end) (m_attribute m).
Definition rid_ids_of (d : single_direction) (rids : list rid) : list str :=
  flat_map (fun r => if single_direction_eqb (rid_direction r) d then [rid_id r] else []) rids.
(** lib.rs:724-741 *)
Definition rid_format_declared (formats : format_list) (f : N) : bool :=
  match formats with
  | Integers l => mem_N f l
  | Strings l => mem_str (show_N f) l
  end.
(** The closure [check_defined_rids] (lib.rs:746-758). *)
Definition defined_rids (versions : list simulcast_version) (ids : list str) : bool :=
  forallb (fun i => mem_str (sid_id i) ids) (List.concat versions).

(** The checks on one media section (lib.rs:690-763). *)
Definition sanity_check_media (m : media) : res perr unit :=
  if is_some (get_attribute TRtcpMuxOnly m) && negb (is_some (get_attribute TRtcpMux m))
  then seq_error "rtcp-mux-only media sections must also contain the rtcp-mux attribute"
  else
    let rids := rids_of m in
    if negb (forallb (rid_format_declared (get_formats m)) (flat_map rid_formats rids))
    then seq_error "Rid pts must be declared in the media section"
    else
      match get_attribute TSimulcast m with
      | Some (ASimulcast sc) =>
          if negb (defined_rids (sim_receive sc) (rid_ids_of Recv rids))
          then seq_error "Simulcast RIDs must be defined in any rid attribute"
          else if negb (defined_rids (sim_send sc) (rid_ids_of Send rids))
          then seq_error "Simulcast RIDs must be defined in any rid attribute"
          else Ok tt
      | _ => Ok tt
      end.
Fixpoint sanity_check_all (l : list media) : res perr unit :=
  match l with
  | [] => Ok tt
  | m :: rest => _ <- sanity_check_media m ;; sanity_check_all rest
  end.

Definition sanity_check (s : session) : res perr unit :=
  if negb (is_some (s_timing s)) then seq_error "Missing timing type at session level"
  else
    let media_cons := forallb (fun m => is_some (m_connection m)) (s_media s) in
    if negb media_cons && negb (is_some (s_connection s))
    then seq_error "Without connection type at session level all media sections must have connection types"
    else if is_some (session_get_attribute TExtmap s)
            && existsb (fun m => is_some (get_attribute TExtmap m)) (s_media s)
    then seq_error "Extmap can't be define at session and media level"
    else sanity_check_all (s_media s).

(** ** [parse_sdp_vector] (lib.rs:768-820) *)
Definition is_media_line (l : sdp_line) : bool :=
  match l_type l with TyMedia _ => true | _ => false end.
(** [position] + [drain(p..)] (lib.rs:805-815): the lines before the first
    media line, and the rest. *)
Fixpoint split_at_media (lines : list sdp_line) : list sdp_line * list sdp_line :=
  match lines with
  | [] => ([], [])
  | l :: rest =>
      if is_media_line l then ([], lines)
      else let '(a, b) := split_at_media rest in (l :: a, b)
  end.
(** Turns the (state, result) pair of [parse_session_vector] into a result. *)
Definition keep {A} (x : A * res perr unit) : res perr A :=
  match x with (a, Ok _) => Ok a | (_, Err e) => Err e | (_, Panic) => Panic end.

Definition parse_sdp_vector (lines : list sdp_line) : res perr session :=
  if Nat.ltb (List.length lines) 4
  then Err (PSequence (fmt "SDP neeeds at least 4 lines" []) 0)
  else
    l0 <- idx lines 0 ;;
    match l_type l0 with
    | TyVersion version =>
        l1 <- idx lines 1 ;;
        match l_type l1 with
        | TyOrigin o =>
            l2 <- idx lines 2 ;;
            match l_type l2 with
            | TySession name =>
                let s := session_new version o name in
                let '(head, tail) := split_at_media (skipn 3 lines) in
                s <- match tail with
                     | [] => keep (parse_session_vector s head)
                     | _ :: _ =>
                         s <- keep (parse_session_vector s head) ;;
                         ms <- parse_media_vector tail ;;
                         Ok (session_extend_media ms s)
                     end ;;
                _ <- sanity_check s ;;
                Ok s
            | _ => Err (PSequence (fmt "third line needs to be session" []) 2)
            end
        | _ => Err (PSequence (fmt "second line needs to be origin" []) 1)
        end
    | _ => Err (PSequence (fmt "first line needs to be version number" []) 0)
    end.

(** ** [parse_sdp] (lib.rs:822-903) *)
Record scan := { sc_lines : list sdp_line; sc_errors : list perr; sc_warnings : list perr }.
(** The loop over the lines of the input (lib.rs:838-884). *)
Fixpoint scan_lines (n : nat) (acc : scan) (lines : list str) : res perr scan :=
  match lines with
  | [] => Ok acc
  | line :: rest =>
      if is_empty (trim line) then scan_lines (S n) acc rest
      else
        match parse_sdp_line line n with
        | Ok l =>
            scan_lines (S n) {| sc_lines := sc_lines acc ++ [l]; sc_errors := sc_errors acc;
                                sc_warnings := sc_warnings acc |} rest
        | Err (PUnsupported e l k) =>
            scan_lines (S n) {| sc_lines := sc_lines acc; sc_errors := sc_errors acc;
                                sc_warnings := sc_warnings acc ++ [PUnsupported e l k] |} rest
        | Err e =>
            scan_lines (S n) {| sc_lines := sc_lines acc; sc_errors := sc_errors acc ++ [e];
                                sc_warnings := sc_warnings acc |} rest
        | Panic => Panic
        end
  end.

(** [errors.pop()] (lib.rs:891). *)
Definition last_error (l : list perr) : option perr := hd_error (rev l).

Definition parse_sdp (sdp : str) (fail_on_warning : bool) : res perr session :=
  if is_empty sdp then Err (PLine (gen "empty SDP") sdp 0)
  else if byte_len sdp <? 51 then Err (PLine (gen "string too short to be valid SDP") sdp 0)
  else
    sc <- scan_lines 0 {| sc_lines := []; sc_errors := []; sc_warnings := [] |} (lines sdp) ;;
    match fail_on_warning, sc_warnings sc with
    | true, w :: _ => Err w
    | _, _ =>
        match last_error (sc_errors sc) with
        | Some e => Err e
        | None =>
            s <- parse_sdp_vector (sc_lines sc) ;;
            Ok (session_with_warnings (sc_warnings sc) s)
        end
    end.

End WithExt.

(** * Attribute parsing (attribute_type.rs:1440-1511, 1737-3428) *)
From Coq Require Import List NArith ZArith Bool Ascii String.
From Verif Require Import Str Num Net Types Ext Show Address.
Import ListNotations.
Open Scope N_scope.
Open Scope list_scope.

Section WithExt.
Context {E : Ext}.

(** [x.parse::<uN>()?] and [x.parse::<fN>()?]: the std error is wrapped by
    [From] (error.rs:168-190). *)
Definition p_u8 (s : str) : res ierr N := res_map_err EInteger (parse_u8 s).
Definition p_u16 (s : str) : res ierr N := res_map_err EInteger (parse_u16 s).
Definition p_u32 (s : str) : res ierr N := res_map_err EInteger (parse_u32 s).
Definition p_u64 (s : str) : res ierr N := res_map_err EInteger (parse_u64 s).
Definition p_f32 (s : str) : res ierr f32 := res_map_err EFloat (parse_f32 s).
Definition p_f64 (s : str) : res ierr f64 := res_map_err EFloat (parse_f64 s).

(** attribute_type.rs:1738-1746 *)
Definition string_or_empty (s : str) : res ierr str :=
  if is_empty s then Err (gen "This attribute is required to have a value") else Ok s.

(** attribute_type.rs:1748-1753 *)
Definition parse_payload_type (s : str) : res ierr payload_type_t :=
  if str_eqb s (lit "*") then Ok Wildcard
  else n <- p_u8 s ;; Ok (PayloadType n).

(** attribute_type.rs:1755-1763 *)
Definition parse_single_direction (s : str) : res ierr single_direction :=
  match assoc_str s [ (lit "send", Send); (lit "recv", Recv) ] with
  | Some d => Ok d
  | None => Err (genf "Unknown direction description found: '{}'" [s])
  end.

(** [SdpAttributeSsrc::set_attribute] (attribute_type.rs:1232-1240). *)
Definition ssrc_set_attribute (a : str) (s : ssrc) : res ierr ssrc :=
  if negb (contains c_colon a)
  then Ok {| ssrc_id := ssrc_id s; ssrc_attribute := Some a; ssrc_value := ssrc_value s |}
  else
    let v := splitn 2 c_colon a in
    v0 <- idx v 0 ;; v1 <- idx v 1 ;;
    Ok {| ssrc_id := ssrc_id s; ssrc_attribute := Some v0; ssrc_value := Some v1 |}.

(** attribute_type.rs:3408-3424; returns the [SdpAttributeSsrc] that the code
    wraps in [SdpAttribute::Ssrc]. *)
Definition parse_ssrc_ (s : str) : res ierr ssrc :=
  match splitn 2 c_space s with
  | [] => Err (gen "Ssrc attribute is missing ssrc-id value")
  | x :: rest =>
      id <- p_u32 x ;;
      let ssrc := {| ssrc_id := id; ssrc_attribute := None; ssrc_value := None |} in
      match rest with
      | [] => Ok ssrc
      | y :: _ => ssrc_set_attribute y ssrc
      end
  end.
Definition parse_ssrc (s : str) : res ierr attr := x <- parse_ssrc_ s ;; Ok (ASsrc x).

(** attribute_type.rs:1769-1811; the [unreachable!] arm is the [Panic]. *)
Definition parse_ssrc_group (s : str) : res ierr attr :=
  match split_whitespace s with
  | [] => Err (gen "Ssrc group attribute is missing semantics")
  | x :: tokens =>
      match assoc_str (to_upper x)
              [ (lit "DUP", SgDup); (lit "FID", SgFid); (lit "FEC", SgFec);
                (lit "FEC-FR", SgFecFr); (lit "SIM", SgSim) ] with
      | None => Err (unsupf "Unknown ssrc semantic '{}' found" [debug_str (to_upper x)])
      | Some sem =>
          ssrcs <- mapM (fun t => a <- parse_ssrc t ;;
                                  match a with ASsrc r => Ok r | _ => Panic end) tokens ;;
          match ssrcs with
          | [] => Err (gen "Ssrc group must contain at least one ssrc")
          | _ => Ok (ASsrcGroup sem ssrcs)
          end
      end
  end.

(** attribute_type.rs:1817-1825 *)
Definition parse_sctp_port (s : str) : res ierr attr :=
  port <- p_u64 s ;;
  if 65535 <? port
  then Err (genf "Sctpport port {} can only be a bit 16bit number" [show_N port])
  else Ok (ASctpPort port).

(** The extension loop of [parse_candidate] (attribute_type.rs:1906-1966), on
    the tokens from index 8 on, two at a time. *)
Definition candidate_extension (cand : candidate) (name value : str) : res ierr candidate :=
  let n := to_lower name in
  if str_eqb n (lit "generation") then
    g <- p_u32 value ;; Ok (set_generation (Some g) cand)
  else if str_eqb n (lit "network-cost") then
    c <- p_u32 value ;; Ok (set_networkcost (Some c) cand)
  else if str_eqb n (lit "raddr") then
    a <- parse_unicast_address value ;; Ok (set_raddr (Some a) cand)
  else if str_eqb n (lit "rport") then
    p <- p_u32 value ;;
    if 65535 <? p then Err (gen "ICE candidate rport can only be a bit 16bit number")
    else Ok (set_rport (Some p) cand)
  else if str_eqb n (lit "tcptype") then
    match assoc_str (to_lower value)
            [ (lit "active", TcpActive); (lit "passive", TcpPassive);
              (lit "so", TcpSimultaneous) ] with
    | Some t => Ok (set_tcp_type (Some t) cand)
    | None => Err (gen "Unknown tcptype value in candidate line")
    end
  else if str_eqb n (lit "ufrag") then Ok (set_ufrag (Some value) cand)
  else Ok (set_unknown_extensions (unknown_extensions cand ++ [(name, value)]) cand).
Fixpoint candidate_extensions (cand : candidate) (tokens : list str) : res ierr candidate :=
  match tokens with
  | [] => Ok cand
  | [_] => Err (unsup "Ice candidate extension name without value")
  | name :: value :: rest =>
      cand' <- candidate_extension cand name value ;; candidate_extensions cand' rest
  end.

(** attribute_type.rs:1853-1968 *)
Definition parse_candidate (s : str) : res ierr attr :=
  let tokens := split_whitespace s in
  if Nat.ltb (List.length tokens) 8
  then Err (gen "Candidate needs to have minimum eigth tokens")
  else
    t1 <- idx tokens 1 ;;
    component <- p_u32 t1 ;;
    t2 <- idx tokens 2 ;;
    transport <- ok_or (assoc_str (to_lower t2) [ (lit "udp", Udp); (lit "tcp", Tcp) ])
                       (gen "Unknonw candidate transport value") ;;
    t3 <- idx tokens 3 ;;
    priority <- p_u64 t3 ;;
    t4 <- idx tokens 4 ;;
    address <- address_from_str t4 ;;
    t5 <- idx tokens 5 ;;
    port <- p_u32 t5 ;;
    if 65535 <? port then Err (gen "ICE candidate port can only be a bit 16bit number")
    else
    t6 <- idx tokens 6 ;;
    if negb (str_eqb (to_lower t6) (lit "typ"))
    then Err (gen "Candidate attribute token must be 'typ'")
    else
    t7 <- idx tokens 7 ;;
    ctype <- ok_or (assoc_str (to_lower t7)
                      [ (lit "host", Host); (lit "srflx", Srflx); (lit "prflx", Prflx);
                        (lit "relay", Relay) ])
                   (gen "Unknow candidate type value") ;;
    t0 <- idx tokens 0 ;;
    let cand := Build_candidate t0 component transport priority address port ctype
                  None None None None None None [] in
    cand' <- candidate_extensions cand (skipn 8 tokens) ;;
    Ok (ACandidate cand').

(** attribute_type.rs:1981-1999 *)
Definition parse_dtls_message (s : str) : res ierr attr :=
  let tokens := split c_space s in
  if negb (Nat.eqb (List.length tokens) 2)
  then Err (gen "dtls-message must have a role token and a value token.")
  else
    t0 <- idx tokens 0 ;;
    t1 <- idx tokens 1 ;;
    if str_eqb t0 (lit "client") then Ok (ADtlsMessage (DtlsClient t1))
    else if str_eqb t0 (lit "server") then Ok (ADtlsMessage (DtlsServer t1))
    else Err (genf "dtls-message has unknown role token '{}'" [t0]).

(** attribute_type.rs:2003-2005 *)
Definition valid_byte_string (s : str) : bool :=
  negb (contains 0 s || contains c_lf s || contains c_cr s).

(** attribute_type.rs:2028-2071 *)
Definition parse_extmap (s : str) : res ierr attr :=
  let tokens := split_whitespace s in
  if Nat.ltb (List.length tokens) 2
  then Err (gen "Extmap needs to have at least two tokens")
  else
    t0 <- idx tokens 0 ;;
    ' (id, dir) <-
      (if negb (contains c_slash t0) then id <- p_u16 t0 ;; Ok (id, None)
       else
         let id_dir := splitn 2 c_slash t0 in
         d0 <- idx id_dir 0 ;;
         id <- p_u16 d0 ;;
         d1 <- idx id_dir 1 ;;
         match assoc_str (to_lower d1)
                 [ (lit "recvonly", DRecvonly); (lit "sendonly", DSendonly);
                   (lit "sendrecv", DSendrecv) ] with
         | Some d => Ok (id, Some d)
         | None => Err (gen "Unsupported direction in extmap value")
         end) ;;
    ext <-
      (if Nat.eqb (List.length tokens) 2 then Ok None
       else
         let ext_string := join sp (skipn 2 tokens) in
         if negb (valid_byte_string ext_string)
         then Err (gen "Illegal character in extmap extension attributes")
         else Ok (Some ext_string)) ;;
    t1 <- idx tokens 1 ;;
    Ok (AExtmap {| ext_id := id; ext_direction := dir; ext_url := t1; ext_attributes := ext |}).

(** [try_from_name] (attribute_type.rs:745-756). *)
Definition hash_type_from_name (s : str) : res ierr hash_type :=
  match assoc_str s
          [ (lit "sha-1", Sha1); (lit "sha-224", Sha224); (lit "sha-256", Sha256);
            (lit "sha-384", Sha384); (lit "sha-512", Sha512) ] with
  | Some h => Ok h
  | None => Err (unsupf "fingerprint contains an unsupported hash algorithm '{}'" [s])
  end.
(** [octet_count] (attribute_type.rs:757-765). *)
Definition octet_count (h : hash_type) : nat :=
  match h with Sha1 => 20 | Sha224 => 28 | Sha256 => 32 | Sha384 => 48 | Sha512 => 64 end%nat.
(** [parse_octets] (attribute_type.rs:767-789). *)
Definition parse_octets (h : hash_type) (s : str) : res ierr (list N) :=
  bytes <- mapM (fun t =>
             if negb (byte_len t =? 2)
             then Err (gen "fingerpint's byte tokens must have 2 hexdigits")
             else res_map_err EInteger (parse_uint 16 u8_max t)) (split c_colon s) ;;
  if negb (Nat.eqb (List.length bytes) (octet_count h))
  then Err (genf "fingerprint has {} bytes but should have {} bytes"
              [ show_N (N.of_nat (List.length bytes)); show_N (N.of_nat (octet_count h)) ])
  else Ok bytes.
(** [SdpAttributeFingerprint::try_from] (attribute_type.rs:813-829). *)
Definition fingerprint_try_from (h : hash_type) (b : list N) : res ierr fingerprint :=
  if Nat.eqb (octet_count h) (List.length b) then Ok {| fp_hash := h; fp_bytes := b |}
  else Err (genf "Hash algoritm expects {} fingerprint bytes not {}"
              [ show_N (N.of_nat (octet_count h)); show_N (N.of_nat (List.length b)) ]).
(** attribute_type.rs:2089-2101 *)
Definition parse_fingerprint (s : str) : res ierr attr :=
  let tokens := split_whitespace s in
  if negb (Nat.eqb (List.length tokens) 2)
  then Err (gen "Fingerprint needs to have two tokens")
  else
    t0 <- idx tokens 0 ;;
    hash <- hash_type_from_name t0 ;;
    t1 <- idx tokens 1 ;;
    bytes <- parse_octets hash t1 ;;
    fp <- fingerprint_try_from hash bytes ;;
    Ok (AFingerprint fp).

(** The default parameters of [parse_fmtp] (attribute_type.rs:2120-2146). *)
Definition default_fmtp_params : fmtp_params :=
  Build_fmtp_params
    0            (* packetization_mode *)
    false        (* level_asymmetry_allowed *)
    4325386      (* profile_level_id = 0x0042_000A *)
    0 0 0 0 0    (* max_fs max_cpb max_dpb max_br max_mbps *)
    0            (* max_fr *)
    None None None (* profile level_idx tier *)
    48000        (* maxplaybackrate *)
    0            (* maxaveragebitrate *)
    false false false false (* usedtx stereo useinbandfec cbr *)
    0 0 0        (* ptime minptime maxptime *)
    []           (* encodings *)
    []           (* dtmf_tones *)
    None         (* rtx *)
    [].          (* unknown_tokens *)

(** The closure [parse_bool] (attribute_type.rs:2164-2173). *)
Definition fmtp_parse_bool (val name : str) : res ierr bool :=
  n <- p_u8 val ;;
  if n =? 0 then Ok false
  else if n =? 1 then Ok true
  else Err (genf "The fmtp parameter '{}' must be 0 or 1" [name]).

(** A range check [match val { x @ 0..=max => x, _ => return Err }]. *)
Definition up_to (max : N) (err : ierr) (n : N) : res ierr N :=
  if n <=? max then Ok n else Err err.

(** One "name=value" token of a parameter list (attribute_type.rs:2155-2283). *)
Definition fmtp_parameter (p : fmtp_params) (tok : str) : res ierr fmtp_params :=
  match splitn 2 c_eq tok with
  | [name; val] =>
      let n := to_upper name in
      if str_eqb n (lit "PROFILE-LEVEL-ID") then
        x <- res_map_err EInteger (parse_uint 16 u32_max val) ;;
        x <- up_to 16777215
               (gen "The fmtp parameter 'profile-level-id' must be in range [0,0xffffff]") x ;;
        Ok (set_profile_level_id x p)
      else if str_eqb n (lit "PACKETIZATION-MODE") then
        x <- p_u32 val ;;
        x <- up_to 2 (gen "The fmtp parameter 'packetization-mode' must be 0,1 or 2") x ;;
        Ok (set_packetization_mode x p)
      else if str_eqb n (lit "LEVEL-ASYMMETRY-ALLOWED") then
        b <- fmtp_parse_bool val (lit "level-asymmetry-allowed") ;;
        Ok (set_level_asymmetry_allowed b p)
      else if str_eqb n (lit "MAX-MBPS") then x <- p_u32 val ;; Ok (set_max_mbps x p)
      else if str_eqb n (lit "MAX-FS") then x <- p_u32 val ;; Ok (set_max_fs x p)
      else if str_eqb n (lit "MAX-CPB") then x <- p_u32 val ;; Ok (set_max_cpb x p)
      else if str_eqb n (lit "MAX-DPB") then x <- p_u32 val ;; Ok (set_max_dpb x p)
      else if str_eqb n (lit "MAX-BR") then x <- p_u32 val ;; Ok (set_max_br x p)
      else if str_eqb n (lit "MAX-FR") then x <- p_u32 val ;; Ok (set_max_fr x p)
      else if str_eqb n (lit "PROFILE") then
        x <- p_u8 val ;;
        x <- up_to 2 (gen "The fmtp parameter 'profile' must be in the range [0,2]") x ;;
        Ok (set_profile (Some x) p)
      else if str_eqb n (lit "LEVEL-IDX") then
        x <- p_u8 val ;;
        x <- up_to 31 (gen "The fmtp parameter 'level-idx' must be in the range [0,31]") x ;;
        Ok (set_level_idx (Some x) p)
      else if str_eqb n (lit "TIER") then
        x <- p_u8 val ;;
        x <- up_to 1 (gen "The fmtp parameter 'tier' must be in the range [0,1]") x ;;
        Ok (set_tier (Some x) p)
      else if str_eqb n (lit "MAXPLAYBACKRATE") then
        x <- p_u32 val ;; Ok (set_maxplaybackrate x p)
      else if str_eqb n (lit "MAXAVERAGEBITRATE") then
        x <- p_u32 val ;; Ok (set_maxaveragebitrate x p)
      else if str_eqb n (lit "PTIME") then x <- p_u32 val ;; Ok (set_ptime x p)
      else if str_eqb n (lit "MAXPTIME") then x <- p_u32 val ;; Ok (set_maxptime x p)
      else if str_eqb n (lit "MINPTIME") then x <- p_u32 val ;; Ok (set_minptime x p)
      else if str_eqb n (lit "USEDTX") then
        b <- fmtp_parse_bool val (lit "usedtx") ;; Ok (set_usedtx b p)
      else if str_eqb n (lit "STEREO") then
        b <- fmtp_parse_bool val (lit "stereo") ;; Ok (set_stereo b p)
      else if str_eqb n (lit "USEINBANDFEC") then
        b <- fmtp_parse_bool val (lit "useinbandfec") ;; Ok (set_useinbandfec b p)
      else if str_eqb n (lit "CBR") then
        b <- fmtp_parse_bool val (lit "cbr") ;; Ok (set_cbr b p)
      else if str_eqb n (lit "APT") then
        x <- p_u8 val ;; Ok (set_rtx (Some {| rtx_apt := x; rtx_time := None |}) p)
      else if str_eqb n (lit "RTX-TIME") then
        match rtx p with
        | Some r =>
            x <- p_u32 val ;;
            Ok (set_rtx (Some {| rtx_apt := rtx_apt r; rtx_time := Some x |}) p)
        | None => Err (gen "RTX codec must have an APT field")
        end
      else Ok (set_unknown_tokens (unknown_tokens p ++ [tok]) p)
  | _ => Err (gen "A fmtp parameter must be either a telephone event, a parameter list or a red codec list")
  end.

(** The closure [validate_digits] on [parse::<u8>().ok()]
    (attribute_type.rs:2303-2311). *)
Definition validate_digits (s : str) : option N :=
  match ok (parse_u8 s) with
  | Some x => if x <=? 100 then Some x else None
  | None => None
  end.
(** The loop body attribute_type.rs:2314-2338; the loop stops at the first tone
    that is not ok, so its result is the conjunction. *)
Definition dtmf_tone_ok (tone : str) : bool :=
  match splitn 2 c_minus tone with
  | [a; b] =>
      match validate_digits a with
      | Some l => match validate_digits b with Some u => l <? u | None => false end
      | None => false
      end
  | [_] => match validate_digits tone with Some _ => true | None => false end
  | _ => false
  end.

(** One parameter block (attribute_type.rs:2148-2349). *)
Definition fmtp_block (p : fmtp_params) (tok : str) : res ierr fmtp_params :=
  if contains c_eq tok then
    foldM fmtp_parameter (filter non_empty (split c_semi tok)) p
  else if contains c_slash tok then
    foldM (fun p e =>
             x <- p_u8 e ;;
             x <- up_to 128 (gen "Red codec must be in range [0,128]") x ;;
             Ok (set_encodings (encodings p ++ [x]) p)) (split c_slash tok) p
  else
    Ok (set_dtmf_tones
          (if forallb dtmf_tone_ok (split c_comma tok) then tok else lit "0-15") p).

(** attribute_type.rs:2107-2354 *)
Definition parse_fmtp (s : str) : res ierr attr :=
  let tokens := splitn 2 c_space s in
  if negb (Nat.eqb (List.length tokens) 2)
  then Err (unsup "Fmtp attributes require a payload type and a parameter block.")
  else
    t0 <- idx tokens 0 ;;
    params <- foldM fmtp_block (skipn 1 tokens) default_fmtp_params ;;
    pt <- p_u8 t0 ;;
    Ok (AFmtp {| fmtp_payload_type := pt; fmtp_parameters := params |}).

(** attribute_type.rs:2360-2382 *)
Definition parse_framerate (s : str) : res ierr attr :=
  f <- p_f64 s ;;
  if f64_is_nan f then Err (gen "FrameRate attribute must be a number")
  else if f64_is_infinite f then Err (gen "FrameRate attribute cannot be finite")
  else if f64_is_zero f then Err (gen "FrameRate attribute cannot be zero")
  else Ok (AFrameRate f).

(** attribute_type.rs:2392-2419 *)
Definition parse_group (s : str) : res ierr attr :=
  match split_whitespace s with
  | [] => Err (gen "Group attribute is missing semantics token")
  | x :: tokens =>
      match assoc_str (to_upper x)
              [ (lit "LS", GLs); (lit "FID", GFid); (lit "SRF", GSrf); (lit "ANAT", GAnat);
                (lit "FEC", GFec); (lit "DDP", GDdp); (lit "BUNDLE", GBundle) ] with
      | Some sem => Ok (AGroup {| grp_semantics := sem; grp_tags := tokens |})
      | None => Err (unsupf "Unknown group semantic '{}' found" [debug_str (to_upper x)])
      end
  end.

(** attribute_type.rs:2427-2439 *)
Definition parse_ice_options (s : str) : res ierr attr :=
  if is_empty s then Err (gen "ice-options is required to have a value")
  else Ok (AIceOptions (split_whitespace s)).

(** attribute_type.rs:2446-2454 *)
Definition parse_ice_pacing (s : str) : res ierr attr :=
  n <- p_u64 s ;;
  if 10000000000 <=? n then Err (gen "ice-pacing value is not a 10 digit integer")
  else Ok (AIcePacing n).

(** The i32 counter of [parse_imageattr_tokens]: leaving the i32 range panics
    (the behaviour of a debug build; a release build wraps). *)
Definition i32_checked (z : Z) : res ierr Z :=
  if ((-2147483648 <=? z) && (z <=? 2147483647))%Z then Ok z else Panic.
(** attribute_type.rs:2456-2478; [cur] is [current_tokens], [k] the counter. *)
Fixpoint imageattr_tokens_loop (sep : char) (k : Z) (cur tokens : list str) (l : list str)
  : res ierr (list str) :=
  match l with
  | [] => Ok tokens
  | t :: rest =>
      k <- (if contains c_lbr t then i32_checked (k + 1) else Ok k) ;;
      k <- (if contains c_rbr t then i32_checked (k - 1) else Ok k) ;;
      let cur' := cur ++ [t] in
      if (k =? 0)%Z
      then imageattr_tokens_loop sep k [] (tokens ++ [join [sep] cur']) rest
      else imageattr_tokens_loop sep k cur' tokens rest
  end.
Definition parse_imageattr_tokens (s : str) (sep : char) : res ierr (list str) :=
  imageattr_tokens_loop sep 0%Z [] [] (split sep s).

(** [&s[1..s.len()-1]] of attribute_type.rs:2489: panics unless there are two
    chars to drop (both are single-byte here: '[' and ']'). *)
Definition slice_inner (s : str) : res ierr str :=
  match s with
  | _ :: s' => match rev s' with _ :: r => Ok (rev r) | [] => Panic end
  | [] => Panic
  end.
(** attribute_type.rs:2480-2490; [err] is the error of the caller's
    [ok_or_else]. *)
Definition braced_token (s : str) (err : ierr) : res ierr str :=
  if negb (starts_with_char c_lbr s) then Err err
  else if negb (ends_with_char c_rbr s) then Err err
  else slice_inner s.

(** attribute_type.rs:2492-2543 *)
Definition parse_xyrange (s : str) : res ierr xy_range :=
  if starts_with_char c_lbr s then
    value_tokens <- braced_token s (gen "imageattr's xyrange has no closing tag ']'") ;;
    if contains c_colon s then
      match split c_colon value_tokens with
      | [a; b; c] =>
          x <- p_u32 a ;; y <- p_u32 c ;; z <- p_u32 b ;; Ok (XyRange x y (Some z))
      | [a; b] => x <- p_u32 a ;; y <- p_u32 b ;; Ok (XyRange x y None)
      | _ => Err (gen "imageattr's xyrange must contain 2 or 3 fields")
      end
    else
      values <- mapM p_u32 (split c_comma value_tokens) ;;
      if Nat.ltb (List.length values) 2
      then Err (gen "imageattr's discrete value list must have at least two elements")
      else Ok (XyDiscrete values)
  else x <- p_u32 s ;; Ok (XyDiscrete [x]).

(** The closure [parse_ps_range] (attribute_type.rs:2574-2593). *)
Definition parse_ps_range (s : str) : res ierr (f32 * f32) :=
  match split c_minus s with
  | [a; b] =>
      min <- p_f32 a ;;
      max <- p_f32 b ;;
      if f32_ge min max
      then Err (gen "In imageattr's par and sar ranges, first must be < than the second")
      else Ok (min, max)
  | _ => Err (gen "imageattr's par and sar ranges must have two components")
  end.

(** The ascending check (attribute_type.rs:2623-2632). *)
Fixpoint ascending (last : f32) (l : list f32) : res ierr unit :=
  match l with
  | [] => Ok tt
  | x :: l' =>
      if f32_ge last x
      then Err (gen "imageattr's sar discrete value list must contain ascending values")
      else ascending x l'
  end.

(** The "sar=" arm (attribute_type.rs:2596-2639): [None] keeps the old value. *)
Definition parse_sar (value_token : str) : res ierr (option s_range) :=
  if starts_with_char c_lbr value_token then
    sar_values <- braced_token value_token
                    (gen "imageattr's sar value is missing closing tag ']'") ;;
    if contains c_minus value_token then
      ' (a, b) <- parse_ps_range sar_values ;; Ok (Some (SRange a b))
    else if contains c_comma value_token then
      values <- mapM p_f32 (split c_comma sar_values) ;;
      if Nat.ltb (List.length values) 2
      then Err (gen "imageattr's sar discrete value list must have at least two values")
      else _ <- ascending 0 values ;; Ok (Some (SDiscrete values))
    else Ok None
  else x <- p_f32 value_token ;; Ok (Some (SDiscrete [x])).

(** The "par=" arm (attribute_type.rs:2640-2656). *)
Definition parse_par (braced : str) : res ierr p_range :=
  if negb (starts_with_char c_lbr braced)
  then Err (gen "imageattr's par value must start with '['")
  else
    par_values <- braced_token braced (gen "imageattr's par value must be enclosed with ']'") ;;
    ' (a, b) <- parse_ps_range par_values ;;
    Ok {| par_min := a; par_max := b |}.

(** The body of the loop attribute_type.rs:2595-2660 over the optional keys. *)
Definition image_set_key (acc : option s_range * option p_range * option f32) (tok : str)
  : res ierr (option s_range * option p_range * option f32) :=
  let '(sar, par, q) := acc in
  match strip_prefix (lit "sar=") tok with
  | Some v =>
      new <- parse_sar v ;;
      Ok (match new with Some r => Some r | None => sar end, par, q)
  | None =>
      match strip_prefix (lit "par=") tok with
      | Some v => r <- parse_par v ;; Ok (sar, Some r, q)
      | None =>
          match strip_prefix (lit "q=") tok with
          | Some v => x <- p_f32 v ;; Ok (sar, par, Some x)
          | None => Ok acc
          end
      end
  end.

(** attribute_type.rs:2545-2663 *)
Definition parse_image_set (s : str) : res ierr image_set :=
  tokens <- parse_imageattr_tokens s c_comma ;;
  match tokens with
  | [] => Err (gen "imageattr set is missing the 'x=' token")
  | x_token :: tokens =>
      match strip_prefix (lit "x=") x_token with
      | None => Err (gen "The first token in an imageattr set must begin with 'x='")
      | Some xv =>
          x <- parse_xyrange xv ;;
          match tokens with
          | [] => Err (gen "imageattr set is missing the 'y=' token")
          | y_token :: tokens =>
              match strip_prefix (lit "y=") y_token with
              | None => Err (gen "The second token in an imageattr set must begin with 'y='")
              | Some yv =>
                  y <- parse_xyrange yv ;;
                  ' (sar, par, q) <- foldM image_set_key tokens (None, None, None) ;;
                  Ok {| set_x := x; set_y := y; set_sar := sar; set_par := par; set_q := q |}
              end
          end
      end
  end.

(** The closure [parse_set] (attribute_type.rs:2671-2675). *)
Definition parse_set (s : str) : res ierr image_set :=
  inner <- braced_token s (gen "imageattr sets must be enclosed by ']'") ;;
  parse_image_set inner.

(** The [while let] loop of attribute_type.rs:2689-2695: the sets read and the
    tokens that are left. *)
Fixpoint more_sets (sets : list image_set) (tokens : list str)
  : res ierr (list image_set * list str) :=
  match tokens with
  | t :: rest =>
      if starts_with_char c_lbr t then s <- parse_set t ;; more_sets (sets ++ [s]) rest
      else Ok (sets, tokens)
  | [] => Ok (sets, [])
  end.
(** attribute_type.rs:2665-2700 *)
Definition parse_image_set_list (tokens : list str) : res ierr (image_set_list * list str) :=
  match tokens with
  | [] => Err (gen "imageattr must have a parameter set after a direction token")
  | t :: rest =>
      if str_eqb t (lit "*") then Ok (SetsWildcard, rest)
      else
        s <- parse_set t ;;
        ' (sets, rest') <- more_sets [s] rest ;;
        Ok (Sets sets, rest')
  end.

(** attribute_type.rs:2770-2826 *)
Definition parse_image_attr (s : str) : res ierr attr :=
  tokens <- parse_imageattr_tokens s c_space ;;
  match tokens with
  | [] => Err (gen "imageattr requires a payload token")
  | t0 :: tokens =>
      pt <- parse_payload_type t0 ;;
      match tokens with
      | [] => Err (gen "imageattr's second token must be a direction token")
      | t1 :: tokens =>
          first_direction <- parse_single_direction t1 ;;
          ' (first_set_list, tokens) <- parse_image_set_list tokens ;;
          ' (second_set_list, tokens) <-
            match tokens with
            | [] => Ok (Sets [], [])
            | dir :: tokens =>
                d <- parse_single_direction dir ;;
                if single_direction_eqb d first_direction
                then Err (gen "imageattr's second direction token must be different from the first one")
                else parse_image_set_list tokens
            end ;;
          match tokens with
          | _ :: _ => Err (gen "imageattr must not contain any token after the second set list")
          | [] =>
              Ok (AImageAttr
                    match first_direction with
                    | Send => {| img_pt := pt; img_send := first_set_list; img_recv := second_set_list |}
                    | Recv => {| img_pt := pt; img_send := second_set_list; img_recv := first_set_list |}
                    end)
          end
      end
  end.

(** attribute_type.rs:2834-2846; tokens after the second are ignored. *)
Definition parse_msid (s : str) : res ierr attr :=
  match split_whitespace s with
  | [] => Err (gen "Msid attribute is missing msid-id token")
  | id :: rest => Ok (AMsid {| msid_id := id; msid_appdata := hd_error rest |})
  end.

(** attribute_type.rs:2854-2867 *)
Definition parse_msid_semantic (s : str) : res ierr attr :=
  match split_whitespace s with
  | [] => Err (gen "Msid-semantic attribute is missing msid-semantic token")
  | t :: rest => Ok (AMsidSemantic {| ms_semantic := t; ms_msids := rest |})
  end.

(** attribute_type.rs:2914-2922 *)
Definition default_rid_params : rid_params := Build_rid_params 0 0 0 0 0 0 [].
(** The loop over the parameters after "pt=" (attribute_type.rs:2940-2961). *)
Definition rid_parameter (acc : rid_params * list str) (param : str)
  : res ierr (rid_params * list str) :=
  let '(p, depends) := acc in
  match splitn 2 c_eq param with
  | [name; val] =>
      if str_eqb name (lit "max-width") then x <- p_u32 val ;; Ok (set_max_width x p, depends)
      else if str_eqb name (lit "max-height") then x <- p_u32 val ;; Ok (set_max_height x p, depends)
      else if str_eqb name (lit "max-fps") then x <- p_u32 val ;; Ok (set_max_fps x p, depends)
      else if str_eqb name (lit "max-fs") then x <- p_u32 val ;; Ok (set_rid_max_fs x p, depends)
      else if str_eqb name (lit "max-br") then x <- p_u32 val ;; Ok (set_rid_max_br x p, depends)
      else if str_eqb name (lit "max-pps") then x <- p_u32 val ;; Ok (set_max_pps x p, depends)
      else if str_eqb name (lit "depends") then Ok (p, depends ++ split c_comma val)
      else Ok (set_rid_unknown (rid_unknown p ++ [param]) p, depends)
  | _ => Err (gen "A rid parameter needs to be of form 'param=value'")
  end.
(** attribute_type.rs:2904-2971 *)
Definition parse_rid (s : str) : res ierr attr :=
  let tokens := splitn 3 c_space s in
  if Nat.ltb (List.length tokens) 2
  then Err (gen "A rid attribute must at least have an id and a direction token.")
  else
    ' (formats, params, depends) <-
      match nth_error tokens 2 with
      | None => Ok ([], default_rid_params, [])
      | Some param_token =>
          let parameters := split c_semi param_token in
          ' (formats, parameters) <-
            match parameters with
            | first :: rest =>
                match strip_prefix (lit "pt=") first with
                | Some fmt_list =>
                    fs <- mapM (fun f => p_u16 (trim f)) (split c_comma fmt_list) ;;
                    Ok (fs, rest)
                | None => Ok ([], parameters)
                end
            | [] => Ok ([], [])
            end ;;
          ' (params, depends) <- foldM rid_parameter parameters (default_rid_params, []) ;;
          Ok (formats, params, depends)
      end ;;
    t0 <- idx tokens 0 ;;
    t1 <- idx tokens 1 ;;
    dir <- parse_single_direction t1 ;;
    Ok (ARid {| rid_id := t0; rid_direction := dir; rid_formats := formats;
                rid_params_of := params; rid_depends := depends |}).

(** attribute_type.rs:2979-3015; tokens after the third are ignored. *)
Definition parse_remote_candidates (s : str) : res ierr attr :=
  match split_whitespace s with
  | [] => Err (gen "Remote-candidate attribute is missing component ID")
  | t0 :: rest =>
      component <- p_u32 t0 ;;
      match rest with
      | [] => Err (gen "Remote-candidate attribute is missing connection address")
      | t1 :: rest =>
          address <- parse_unicast_address t1 ;;
          match rest with
          | [] => Err (gen "Remote-candidate attribute is missing port number")
          | t2 :: _ =>
              port <- p_u32 t2 ;;
              if 65535 <? port
              then Err (gen "Remote-candidate port can only be a bit 16bit number")
              else Ok (ARemoteCandidate {| rc_component := component; rc_address := address;
                                           rc_port := port |})
          end
      end
  end.

(** attribute_type.rs:3021-3068; further tokens and '/' parts are ignored. *)
Definition parse_rtpmap (s : str) : res ierr attr :=
  match split_whitespace s with
  | [] => Err (gen "Rtpmap missing payload type")
  | t0 :: rest =>
      pt <- p_u8 t0 ;;
      if 127 <? pt then Err (gen "Rtpmap payload type must be less then 127")
      else match rest with
      | [] => Err (gen "Rtpmap missing payload type")
      | t1 :: _ =>
          match split c_slash t1 with
          | [] => Err (gen "Rtpmap missing codec name")
          | name :: parameters =>
              match parameters with
              | [] => Err (gen "Rtpmap missing codec name")
              | f :: parameters =>
                  frequency <- p_u32 f ;;
                  channels <- match parameters with
                              | [] => Ok None
                              | c :: _ => x <- p_u32 c ;; Ok (Some x)
                              end ;;
                  Ok (ARtpmap {| rm_payload_type := pt; rm_codec_name := name;
                                 rm_frequency := frequency; rm_channels := channels |})
              end
          end
      end
  end.

(** attribute_type.rs:3075-3112 *)
Definition parse_rtcp (s : str) : res ierr attr :=
  match split_whitespace s with
  | [] => Err (gen "Rtcp attribute is missing port number")
  | t0 :: rest =>
      port <- p_u16 t0 ;;
      match rest with
      | [] => Ok (ARtcp {| rtcp_port := port; rtcp_unicast_addr := None |})
      | t1 :: rest =>
          _ <- parse_network_type t1 ;;
          match rest with
          | [] => Err (gen "Rtcp attribute is missing address type token")
          | t2 :: rest =>
              addrtype <- addr_type_from_str t2 ;;
              match rest with
              | [] => Err (gen "Rtcp attribute is missing ip address token")
              | t3 :: _ =>
                  addr <- typed_address_try_from addrtype t3 ;;
                  Ok (ARtcp {| rtcp_port := port; rtcp_unicast_addr := Some addr |})
              end
          end
      end
  end.

(** The parameter of an rtcp-fb (attribute_type.rs:3170-3231). *)
Definition rtcp_fb_parameter (t : rtcp_fb_type) (tok : option str) : res ierr str :=
  match t with
  | FbAck =>
      match tok with
      | Some x =>
          if mem_str x [lit "rpsi"; lit "app"] then Ok x
          else Err (unsupf "Unknown rtcpfb ack parameter: {}" [debug_str x])
      | None => Err (unsup "The rtcpfb ack feeback type needs a parameter:")
      end
  | FbCcm =>
      match tok with
      | Some x =>
          if mem_str x [lit "fir"; lit "tmmbr"; lit "tstr"; lit "vbcm"] then Ok x
          else Err (unsupf "Unknown rtcpfb ccm parameter: {}" [debug_str x])
      | None => Ok []
      end
  | FbNack =>
      match tok with
      | Some x =>
          if mem_str x [lit "sli"; lit "pli"; lit "rpsi"; lit "app"] then Ok x
          else Err (unsupf "Unknown rtcpfb nack parameter: {}" [debug_str x])
      | None => Ok []
      end
  | FbTrrInt =>
      match tok with
      | Some x =>
          if is_ok (parse_u32 x) then Ok x
          else Err (genf "Unknown rtcpfb trr-int parameter: {}" [debug_str x])
      | None => Err (gen "The rtcpfb trr-int feedback type needs a parameter")
      end
  | FbRemb | FbTransCc =>
      match tok with
      | Some x => Err (unsupf "Unknown rtcpfb {} parameter: {}" [show_rtcp_fb_type t; debug_str x])
      | None => Ok []
      end
  end.
(** attribute_type.rs:3144-3242 *)
Definition parse_rtcp_fb (s : str) : res ierr attr :=
  let tokens := splitn 4 c_space s in
  fb_type <-
    match nth_error tokens 1 with
    | Some x =>
        match assoc_str x
                [ (lit "ack", FbAck); (lit "ccm", FbCcm); (lit "nack", FbNack);
                  (lit "trr-int", FbTrrInt); (lit "goog-remb", FbRemb);
                  (lit "transport-cc", FbTransCc) ] with
        | Some t => Ok t
        | None => Err (unsupf "Unknown rtcpfb feedback type: {}" [debug_str x])
        end
    | None => Err (gen "Error parsing rtcpfb: no feedback type")
    end ;;
  parameter <- rtcp_fb_parameter fb_type (nth_error tokens 2) ;;
  t0 <- idx tokens 0 ;;
  pt <- parse_payload_type t0 ;;
  Ok (ARtcpfb {| fb_payload_type := pt; fb_feedback_type := fb_type; fb_parameter := parameter;
                 fb_extra := match nth_error tokens 3 with Some x => x | None => [] end |}).

(** attribute_type.rs:3256-3273 *)
Definition parse_sctpmap (s : str) : res ierr attr :=
  let tokens := split_whitespace s in
  if negb (Nat.eqb (List.length tokens) 3)
  then Err (gen "Sctpmap needs to have three tokens")
  else
    t0 <- idx tokens 0 ;;
    port <- p_u16 t0 ;;
    t1 <- idx tokens 1 ;;
    if negb (str_eqb (to_lower t1) (lit "webrtc-datachannel"))
    then Err (gen "Unsupported sctpmap type token")
    else
      t2 <- idx tokens 2 ;;
      channels <- p_u32 t2 ;;
      Ok (ASctpmap {| sm_port := port; sm_channels := channels |}).

(** attribute_type.rs:3280-3294 *)
Definition parse_setup (s : str) : res ierr attr :=
  match assoc_str (to_lower s)
          [ (lit "active", SetupActive); (lit "actpass", SetupActpass);
            (lit "holdconn", SetupHoldconn); (lit "passive", SetupPassive) ] with
  | Some x => Ok (ASetup x)
  | None => Err (gen "Unsupported setup value")
  end.

(** [SdpAttributeSimulcastId::new] (attribute_type.rs:362-376). *)
Definition simulcast_id_new (s : str) : simulcast_id :=
  match s with
  | c :: s' => if c =? c_tilde then {| sid_id := s'; sid_paused := true |}
               else {| sid_id := s; sid_paused := false |}
  | [] => {| sid_id := s; sid_paused := false |}
  end.
(** [SdpAttributeSimulcastVersion::new] (attribute_type.rs:395-404). *)
Definition simulcast_version_new (s : str) : simulcast_version :=
  map simulcast_id_new (split c_comma s).
(** The closure [make_version_list] (attribute_type.rs:3299-3304). *)
Definition make_version_list (s : str) : list simulcast_version :=
  map simulcast_version_new (split c_semi s).
(** attribute_type.rs:3296-3319; the two [unwrap]s are the [Panic]s. *)
Definition parse_simulcast_version_list (s : str) : res ierr (list simulcast_version) :=
  if contains c_eq s then
    let pair := splitn 2 c_eq s in
    descriptor <- idx pair 0 ;;
    if str_eqb descriptor (lit "rid")
    then l <- idx pair 1 ;; Ok (make_version_list l)
    else Err (genf "Simulcast attribute has unknown list descriptor '{}'" [debug_str descriptor])
  else Ok (make_version_list s).

(** attribute_type.rs:3346-3398; tokens after the fourth are ignored. *)
Definition parse_simulcast (s : str) : res ierr attr :=
  match split_whitespace s with
  | [] => Err (gen "Simulcast attribute is missing send/recv value")
  | t0 :: rest =>
      first_direction <- parse_single_direction t0 ;;
      match rest with
      | [] => Err (gen "Simulcast attribute must have an alternatives list after the direction token")
      | t1 :: rest =>
          first <- parse_simulcast_version_list t1 ;;
          second <-
            match rest with
            | [] => Ok []
            | t2 :: rest =>
                d <- parse_single_direction t2 ;;
                if single_direction_eqb d first_direction
                then Err (gen "Simulcast attribute has defined two times the same direction")
                else match rest with
                     | t3 :: _ => parse_simulcast_version_list t3
                     | [] => Err (genf "{}{}"
                               [ debug_str (lit "Simulcast has defined a second direction but");
                                 debug_str (lit "no second list of simulcast stream versions") ])
                     end
            end ;;
          Ok (ASimulcast
                match first_direction with
                | Send => {| sim_send := first; sim_receive := second |}
                | Recv => {| sim_send := second; sim_receive := first |}
                end)
      end
  end.

(** The names that may not carry a value (attribute_type.rs:1450-1461). *)
Definition flag_names : list str :=
  [ lit "bundle-only"; lit "end-of-candidates"; lit "extmap-allow-mixed"; lit "ice-lite";
    lit "ice-mismatch"; lit "inactive"; lit "recvonly"; lit "rtcp-mux"; lit "rtcp-mux-only";
    lit "rtcp-rsize"; lit "sendonly"; lit "sendrecv" ].

(** The dispatch table (attribute_type.rs:1462-1509). *)
Definition attr_parsers : list (str * (str -> res ierr attr)) :=
  [ (lit "bundle-only", fun _ => Ok ABundleOnly);
    (lit "dtls-message", parse_dtls_message);
    (lit "end-of-candidates", fun _ => Ok AEndOfCandidates);
    (lit "ice-lite", fun _ => Ok AIceLite);
    (lit "ice-mismatch", fun _ => Ok AIceMismatch);
    (lit "extmap-allow-mixed", fun _ => Ok AExtmapAllowMixed);
    (lit "ice-pwd", fun v => x <- string_or_empty v ;; Ok (AIcePwd x));
    (lit "ice-ufrag", fun v => x <- string_or_empty v ;; Ok (AIceUfrag x));
    (lit "identity", fun v => x <- string_or_empty v ;; Ok (AIdentity x));
    (lit "imageattr", parse_image_attr);
    (lit "inactive", fun _ => Ok AInactive);
    (lit "label", fun v => x <- string_or_empty v ;; Ok (ALabel x));
    (lit "max-message-size", fun v => x <- p_u64 v ;; Ok (AMaxMessageSize x));
    (lit "maxptime", fun v => x <- p_u64 v ;; Ok (AMaxPtime x));
    (lit "mid", fun v => x <- string_or_empty v ;; Ok (AMid x));
    (lit "msid-semantic", parse_msid_semantic);
    (lit "ptime", fun v => x <- p_u64 v ;; Ok (APtime x));
    (lit "ice-pacing", parse_ice_pacing);
    (lit "rid", parse_rid);
    (lit "recvonly", fun _ => Ok ARecvonly);
    (lit "rtcp-mux", fun _ => Ok ARtcpMux);
    (lit "rtcp-mux-only", fun _ => Ok ARtcpMuxOnly);
    (lit "rtcp-rsize", fun _ => Ok ARtcpRsize);
    (lit "sendonly", fun _ => Ok ASendonly);
    (lit "sendrecv", fun _ => Ok ASendrecv);
    (lit "ssrc-group", parse_ssrc_group);
    (lit "sctp-port", parse_sctp_port);
    (lit "candidate", parse_candidate);
    (lit "extmap", parse_extmap);
    (lit "fingerprint", parse_fingerprint);
    (lit "fmtp", parse_fmtp);
    (lit "framerate", parse_framerate);
    (lit "group", parse_group);
    (lit "ice-options", parse_ice_options);
    (lit "msid", parse_msid);
    (lit "remote-candidates", parse_remote_candidates);
    (lit "rtpmap", parse_rtpmap);
    (lit "rtcp", parse_rtcp);
    (lit "rtcp-fb", parse_rtcp_fb);
    (lit "sctpmap", parse_sctpmap);
    (lit "setup", parse_setup);
    (lit "simulcast", parse_simulcast);
    (lit "ssrc", parse_ssrc) ].

(** [impl FromStr for SdpAttribute] (attribute_type.rs:1440-1511). *)
Definition attr_from_str (line : str) : res ierr attr :=
  let tokens := splitn 2 c_colon line in
  t0 <- idx tokens 0 ;;
  let name := to_lower t0 in
  let val := match nth_error tokens 1 with Some x => trim x | None => [] end in
  if Nat.ltb 1 (List.length tokens) && mem_str name flag_names
  then Err (genf "{} attribute is not allowed to have a value" [name])
  else match assoc_str name attr_parsers with
       | Some p => p val
       | None => Err (unsupf "Unknown attribute type {}" [name])
       end.

(** attribute_type.rs:3426-3428 *)
Definition parse_attribute (value : str) : res ierr sdp_type :=
  a <- attr_from_str (trim value) ;; Ok (TyAttribute a).

(** attribute_type.rs:1341-1388 *)
Definition allowed_at_session_level (a : attr) : bool :=
  match a with
  | ABundleOnly | ACandidate _ | AFmtp _ | AFrameRate _ | AIceMismatch | AImageAttr _
  | ALabel _ | AMaxMessageSize _ | AMaxPtime _ | AMid _ | AMsid _ | APtime _ | ARid _
  | ARemoteCandidate _ | ARtpmap _ | ARtcp _ | ARtcpfb _ | ARtcpMux | ARtcpMuxOnly
  | ARtcpRsize | ASctpmap _ | ASctpPort _ | ASimulcast _ | ASsrc _ | ASsrcGroup _ _ => false
  | ADtlsMessage _ | AEndOfCandidates | AExtmap _ | AExtmapAllowMixed | AFingerprint _
  | AGroup _ | AIceLite | AIceOptions _ | AIcePacing _ | AIcePwd _ | AIceUfrag _
  | AIdentity _ | AInactive | AMsidSemantic _ | ARecvonly | ASendonly | ASendrecv
  | ASetup _ => true
  end.

(** attribute_type.rs:1390-1437 *)
Definition allowed_at_media_level (a : attr) : bool :=
  match a with
  | ADtlsMessage _ | AGroup _ | AIceLite | AIcePacing _ | AIdentity _ | AMsidSemantic _ => false
  | ABundleOnly | ACandidate _ | AEndOfCandidates | AExtmap _ | AExtmapAllowMixed
  | AFingerprint _ | AFmtp _ | AFrameRate _ | AIceMismatch | AIceOptions _ | AIcePwd _
  | AIceUfrag _ | AImageAttr _ | AInactive | ALabel _ | AMaxMessageSize _ | AMaxPtime _
  | AMid _ | AMsid _ | APtime _ | ARid _ | ARecvonly | ARemoteCandidate _ | ARtpmap _
  | ARtcp _ | ARtcpfb _ | ARtcpMux | ARtcpMuxOnly | ARtcpRsize | ASctpmap _ | ASctpPort _
  | ASendonly | ASendrecv | ASetup _ | ASimulcast _ | ASsrc _ | ASsrcGroup _ _ => true
  end.

End WithExt.

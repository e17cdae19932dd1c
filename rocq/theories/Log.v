(** * What parsing writes to the log

    The [trace!] and [warn!] calls of lib.rs and media_type.rs.  A record is its
    level and its message; the target and the source position added by the [log]
    crate are not modelled.  Whether a record is shown is up to the logger: here
    all are kept, in order.  Only definitions. *)
From Coq Require Import List NArith ZArith Bool Ascii String.
From Verif Require Import Str Num Net Types Ext Show AttrParse Media Session.
Import ListNotations.
Open Scope N_scope.
Open Scope list_scope.

Inductive level := Trace | Warn.
Definition record := (level * str)%type.
(** A computation that writes to the log: what it wrote, and its result.  What was
    written before a panic stays written. *)
Definition logged (E A : Type) := (list record * res E A)%type.
(** No call of a log macro on the way. *)
Definition silent {E A} (r : res E A) : logged E A := ([], r).
(** [let x = ...; trace!(t, args); Ok(x)]: all parsers below have their only
    [trace!] directly before the [Ok] at their end. *)
Definition traced {E A} (m : A -> str) (r : res E A) : logged E A :=
  (match r with Ok x => [(Trace, m x)] | Err _ | Panic => [] end, r).

Section WithExt.
Context {E : Ext}.

(** lib.rs:402 *)
Definition parse_session_name_log (v : str) : logged ierr sdp_type :=
  ([(Trace, fmt "session: {}" [v])], parse_session_name v).
(** lib.rs:413 *)
Definition parse_version_log (v : str) : logged ierr sdp_type :=
  traced (fun ty => match ty with TyVersion ver => fmt "version: {}" [show_N ver] | _ => [] end) (parse_version v).
(** lib.rs:478 *)
Definition parse_origin_log (v : str) : logged ierr sdp_type :=
  traced (fun ty => match ty with TyOrigin o => fmt "origin: {}" [show_origin o] | _ => [] end) (parse_origin v).
(** lib.rs:508 *)
Definition parse_connection_log (v : str) : logged ierr sdp_type :=
  traced (fun ty => match ty with TyConnection c => fmt "connection: {}" [show_connection c] | _ => [] end)
    (parse_connection v).
(** lib.rs:526 *)
Definition parse_bandwidth_log (v : str) : logged ierr sdp_type :=
  traced (fun ty => match ty with TyBandwidth bw => fmt "bandwidth: {}" [show_bandwidth bw] | _ => [] end)
    (parse_bandwidth v).
(** lib.rs:540 *)
Definition parse_timing_log (v : str) : logged ierr sdp_type :=
  traced (fun ty => match ty with TyTiming t => fmt "timing: {}" [show_timing t] | _ => [] end) (parse_timing v).
(** media_type.rs:405 *)
Definition parse_media_log (v : str) : logged ierr sdp_type :=
  traced (fun ty => match ty with
    | TyMedia m => fmt "media: {}, {}, {}, {}"
        [show_media_value (ml_media m); show_N (ml_port m); show_protocol_value (ml_proto m); show_format_list (ml_formats m)]
    | _ => [] end) (parse_media v).

(** lib.rs:601-634, with the log. *)
Definition parse_value_log (line_type v raw : str) : logged ierr sdp_type :=
  if str_eqb line_type (lit "a") then silent (parse_attribute v)
  else if str_eqb line_type (lit "b") then parse_bandwidth_log v
  else if str_eqb line_type (lit "c") then parse_connection_log v
  else if str_eqb line_type (lit "e") then silent (Err (genf "unsupported type email: {}" [v]))
  else if str_eqb line_type (lit "i") then silent (Err (genf "unsupported type information: {}" [v]))
  else if str_eqb line_type (lit "k") then silent (Err (genf "unsupported insecure key exchange: {}" [v]))
  else if str_eqb line_type (lit "m") then parse_media_log v
  else if str_eqb line_type (lit "o") then parse_origin_log v
  else if str_eqb line_type (lit "p") then silent (Err (genf "unsupported type phone: {}" [v]))
  else if str_eqb line_type (lit "r") then silent (Err (genf "unsupported type repeat: {}" [v]))
  else if str_eqb line_type (lit "s") then parse_session_name_log raw
  else if str_eqb line_type (lit "t") then parse_timing_log v
  else if str_eqb line_type (lit "u") then silent (Err (genf "unsupported type uri: {}" [v]))
  else if str_eqb line_type (lit "v") then parse_version_log v
  else if str_eqb line_type (lit "z") then silent (Err (genf "unsupported type zone: {}" [v]))
  else silent (Err (gen "unknown sdp type")).

(** lib.rs:544-658, [parse_sdp_line] with the log. *)
Definition parse_sdp_line_log (line : str) (n : nat) : logged perr sdp_line :=
  let fail e : logged perr sdp_line := silent (Err (PLine e line n)) in
  if negb (contains c_eq line) then fail (gen "missing = character in line")
  else
    match splitn 2 c_eq line with
    | [] => fail (gen "missing type")
    | t :: rest =>
        let trimmed := trim t in
        if 1 <? byte_len trimmed then fail (gen "type too long")
        else if is_empty trimmed then fail (gen "type is empty")
        else
          let line_type := to_lower trimmed in
          match rest with
          | [] => fail (gen "missing value")
          | v :: _ =>
              let tv := trim v in
              if is_empty tv && negb (str_eqb line_type (lit "s"))
              then fail (gen "value is empty")
              else
                let '(log, r) := parse_value_log line_type tv v in
                (log,
                 match r with
                 | Ok ty => Ok {| l_number := n; l_type := ty; l_text := line |}
                 | Err e => Err (line_error line n e)
                 | Panic => Panic
                 end)
          end
    end.

(** lib.rs:838-884, the loop of [parse_sdp] with the log. *)
Fixpoint scan_lines_log (n : nat) (acc : scan) (lines : list str) : logged perr scan :=
  match lines with
  | [] => silent (Ok acc)
  | line :: rest =>
      if is_empty (trim line) then scan_lines_log (S n) acc rest
      else
        let '(log, r) := parse_sdp_line_log line n in
        let '(log', r') :=
          match r with
          | Ok l =>
              scan_lines_log (S n) {| sc_lines := sc_lines acc ++ [l]; sc_errors := sc_errors acc;
                                      sc_warnings := sc_warnings acc |} rest
          | Err (PUnsupported e l k) =>
              scan_lines_log (S n) {| sc_lines := sc_lines acc; sc_errors := sc_errors acc;
                                      sc_warnings := sc_warnings acc ++ [PUnsupported e l k] |} rest
          | Err e =>
              scan_lines_log (S n) {| sc_lines := sc_lines acc; sc_errors := sc_errors acc ++ [e];
                                      sc_warnings := sc_warnings acc |} rest
          | Panic => silent Panic
          end in
        (log ++ log', r')
  end.

(** lib.rs:822-903, [parse_sdp] with the log; [parse_sdp_vector] has no log
    macros; lib.rs:898-900 is the loop over the warnings. *)
Definition parse_sdp_log (sdp : str) (fail_on_warning : bool) : logged perr session :=
  if is_empty sdp then silent (Err (PLine (gen "empty SDP") sdp 0))
  else if byte_len sdp <? 51 then silent (Err (PLine (gen "string too short to be valid SDP") sdp 0))
  else
    let '(log, r) := scan_lines_log 0 {| sc_lines := []; sc_errors := []; sc_warnings := [] |} (lines sdp) in
    match r with
    | Ok sc =>
        match fail_on_warning, sc_warnings sc with
        | true, w :: _ => (log, Err w)
        | _, _ =>
            match last_error (sc_errors sc) with
            | Some e => (log, Err e)
            | None =>
                match parse_sdp_vector (sc_lines sc) with
                | Ok s =>
                    let session := session_with_warnings (sc_warnings sc) s in
                    (log ++ map (fun w => (Warn, fmt "Warning: {}" [show_perr w])) (s_warnings session), Ok session)
                | Err e => (log, Err e)
                | Panic => (log, Panic)
                end
            end
        end
    | Err e => (log, Err e)
    | Panic => (log, Panic)
    end.

End WithExt.

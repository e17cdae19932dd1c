(** * [{:?}] and [{:#?}] of sessions (feature "enhanced_debug")

    What the derived [Debug] implementations write.  They see the names and the
    fields that the derived [Serialize] implementations see, in the same order and
    under the same names, so the values are those of [Serde.v] in their
    human-readable form; only the errors serialize differently from their
    definition and are written out here.  Only definitions. *)
From Coq Require Import List NArith Bool Ascii String.
From Verif Require Import Str Num Net Types Ext Show Session Tools Serde.
Import ListNotations.
Open Scope N_scope.
Open Scope list_scope.

Section Debug.
(** Not modelled: which chars above U+009F the standard library takes as
    printable, the texts of floats, and those of two errors of other crates
    ([url::ParseError], here by its message, and [AddrParseError]). *)
Context (printable : char -> bool) (debug_f32 : f32 -> str) (debug_f64 : f64 -> str)
  (url_error : str -> str) (addr_error : str).

(** ** Errors *)
(** [Debug] of [ParseIntError] and [ParseFloatError]: derived, with one field. *)
Definition dv_int_err (k : int_err) : sv :=
  SvStruct (lit "ParseIntError") [(lit "kind",
    match k with
    | IntEmpty => SvUnitVariant (lit "IntErrorKind") 0 (lit "Empty")
    | IntInvalidDigit => SvUnitVariant (lit "IntErrorKind") 1 (lit "InvalidDigit")
    | IntPosOverflow => SvUnitVariant (lit "IntErrorKind") 2 (lit "PosOverflow")
    end)].
Definition dv_float_err (k : float_err) : sv :=
  SvStruct (lit "ParseFloatError") [(lit "kind",
    match k with
    | FloatEmpty => SvUnitVariant (lit "FloatErrorKind") 0 (lit "Empty")
    | FloatInvalid => SvUnitVariant (lit "FloatErrorKind") 1 (lit "Invalid")
    end)].
(** error.rs:15-28 *)
Definition dv_ierr (e : ierr) : sv :=
  let new := SvNewtypeVariant (lit "SdpParserInternalError") in
  match e with
  | UnknownAddressType s => new 0%nat (lit "UnknownAddressType") (SvStr s)
  | AddressTypeMismatch found expected =>
      SvStructVariant (lit "SdpParserInternalError") 1 (lit "AddressTypeMismatch")
        [(lit "found", sv_addr_type found); (lit "expected", sv_addr_type expected)]
  | EGeneric s => new 2%nat (lit "Generic") (SvStr s)
  | EUnsupported s => new 3%nat (lit "Unsupported") (SvStr s)
  | EInteger k => new 4%nat (lit "Integer") (dv_int_err k)
  | EFloat k => new 5%nat (lit "Float") (dv_float_err k)
  | EDomain s => new 6%nat (lit "Domain") (SvUnitVariant (lit "ParseError") 0 (url_error s))
  | EIpAddress => new 7%nat (lit "IpAddress") (SvUnitVariant (lit "AddrParseError") 0 addr_error)
  end.
(** error.rs:76-92 *)
Definition dv_perr (e : perr) : sv :=
  let of_line i v e line n :=
    SvStructVariant (lit "SdpParserError") i v
      [(lit "error", dv_ierr e); (lit "line", SvStr line); (lit "line_number", u64_sv (N.of_nat n))] in
  match e with
  | PLine e line n => of_line 0%nat (lit "Line") e line n
  | PUnsupported e line n => of_line 1%nat (lit "Unsupported") e line n
  | PSequence m n =>
      SvStructVariant (lit "SdpParserError") 2 (lit "Sequence")
        [(lit "message", SvStr m); (lit "line_number", u64_sv (N.of_nat n))]
  end.
(** lib.rs:192-212 *)
Definition dv_session (s : session) : sv :=
  SvStruct (lit "SdpSession")
    [(lit "version", u64_sv (s_version s)); (lit "origin", sv_origin true (s_origin s));
     (lit "session", sv_option SvStr (s_session s)); (lit "connection", sv_option (sv_connection true) (s_connection s));
     (lit "bandwidth", sv_vec sv_bandwidth (s_bandwidth s)); (lit "timing", sv_option sv_timing (s_timing s));
     (lit "attribute", sv_vec (sv_attr true) (s_attribute s)); (lit "media", sv_vec (sv_media true) (s_media s));
     (lit "warnings", sv_vec dv_perr (s_warnings s))].

(** ** Leaves *)
(** [Debug] of [str] in the standard library ([char::escape_debug], without single
    quotes). *)
Definition escape_debug (c : char) : str :=
  if c =? 0 then [92; 48]
  else if c =? 9 then [92; 116]
  else if c =? 10 then [92; 110]
  else if c =? 13 then [92; 114]
  else if (c =? 34) || (c =? 92) then [92; c]
  else if (c <? 32) || ((127 <=? c) && (c <=? 159)) || ((160 <=? c) && negb (printable c)) then
    lit "\u{" ++ show_hex c ++ lit "}"
  else [c].
Definition quoted (s : str) : str := 34 :: flat_map escape_debug s ++ [34].
(** [Debug] of [IpAddr] is its [Display]: the text without quotes.  [Ip] is the only
    variant that holds one (address.rs:17, :116). *)
Definition ip_text (variant : str) (v : sv) : option str :=
  match v with SvStr s => if str_eqb variant (lit "Ip") then Some s else None | _ => None end.
Definition debug_bool (b : bool) : str := if b then lit "true" else lit "false".

(** ** [{:?}]: [DebugStruct], [DebugTuple] and [DebugList] of the standard library *)
Fixpoint compact (v : sv) : str :=
  let tuple (l : list str) := lit "(" ++ join (lit ", ") l ++ lit ")" in
  let struct (l : list str) := lit " { " ++ join (lit ", ") l ++ lit " }" in
  match v with
  | SvBool b => debug_bool b
  | SvUint _ n => show_N n
  | SvF32 x => debug_f32 x
  | SvF64 x => debug_f64 x
  | SvStr s => quoted s
  | SvNone => lit "None"
  | SvSome v => lit "Some" ++ tuple [compact v]
  | SvSeq l => lit "[" ++ join (lit ", ") (map compact l) ++ lit "]"
  | SvTuple l => tuple (map compact l)
  | SvStruct n l => n ++ struct (map (fun f => match f with (k, v) => k ++ lit ": " ++ compact v end) l)
  | SvUnitVariant _ _ n => n
  | SvNewtypeVariant _ _ n v => n ++ tuple [match ip_text n v with Some t => t | None => compact v end]
  | SvTupleVariant _ _ n l => n ++ tuple (map compact l)
  | SvStructVariant _ _ n l => n ++ struct (map (fun f => match f with (k, v) => k ++ lit ": " ++ compact v end) l)
  end.

(** ** [{:#?}] *)
(** [PadAdapter]: four blanks before each line. *)
Fixpoint pad_from (on_newline : bool) (s : str) : str :=
  match s with
  | [] => []
  | c :: s => (if on_newline then lit "    " else []) ++ c :: pad_from (c =? 10) s
  end.
Definition entry (s : str) : str := pad_from true (s ++ [44; 10]).
Fixpoint pretty (v : sv) : str :=
  let tuple (l : list str) := lit "(" ++ [10] ++ List.concat (map entry l) ++ lit ")" in
  let struct (l : list str) := lit " {" ++ [10] ++ List.concat (map entry l) ++ lit "}" in
  match v with
  | SvBool b => debug_bool b
  | SvUint _ n => show_N n
  | SvF32 x => debug_f32 x
  | SvF64 x => debug_f64 x
  | SvStr s => quoted s
  | SvNone => lit "None"
  | SvSome v => lit "Some" ++ tuple [pretty v]
  | SvSeq [] => lit "[]"
  | SvSeq l => lit "[" ++ [10] ++ List.concat (map entry (map pretty l)) ++ lit "]"
  | SvTuple l => tuple (map pretty l)
  | SvStruct n l => n ++ struct (map (fun f => match f with (k, v) => k ++ lit ": " ++ pretty v end) l)
  | SvUnitVariant _ _ n => n
  | SvNewtypeVariant _ _ n v => n ++ tuple [match ip_text n v with Some t => t | None => pretty v end]
  | SvTupleVariant _ _ n l => n ++ tuple (map pretty l)
  | SvStructVariant _ _ n l => n ++ struct (map (fun f => match f with (k, v) => k ++ lit ": " ++ pretty v end) l)
  end.

(** [format!("{:?}", s)] and [format!("{:#?}", s)]. *)
Definition debug_session (s : session) : str := compact (dv_session s).
Definition debug_session_pretty (s : session) : str := pretty (dv_session s).
End Debug.

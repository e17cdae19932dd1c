(** * What [{:?}] and [{:#?}] write (C76).  Only definitions. *)
From Coq Require Import List NArith Bool Ascii String.
From Verif Require Import Str Num Net Types Ext Show Session Serde SpecDoc SpecItems SpecSerde.
Import ListNotations.
Open Scope N_scope.
Open Scope list_scope.

(** ** Characters *)
(** Letters, digits and what else occurs in names, numbers and addresses. *)
Definition word_char (c : char) : bool :=
  ((48 <=? c) && (c <=? 58)) || ((65 <=? c) && (c <=? 90)) || ((97 <=? c) && (c <=? 122)) || mem_N c (lit "_.+-").
Definition a_word (s : str) : Prop := s <> [] /\ forallb word_char s = true.
(** Chars that a terminal shows. *)
Definition clean (printable : char -> bool) (c : char) : Prop :=
  32 <= c /\ ~ (127 <= c <= 159) /\ (160 <= c -> printable c = true).

(** ** The texts that are not modelled *)
Record debug_texts (debug_f32 debug_f64 : N -> str) (url_error : str -> str) (addr_error : str) : Prop := {
  f32_word : forall x, a_word (debug_f32 x);
  f64_word : forall x, a_word (debug_f64 x);
  f32_apart : forall x y, u32 x -> u32 y -> f32_is_nan x = false -> f32_is_nan y = false -> debug_f32 x = debug_f32 y -> x = y;
  f64_apart : forall x y, u64 x -> u64 y -> f64_is_nan x = false -> f64_is_nan y = false -> debug_f64 x = debug_f64 y -> x = y;
  url_clean : forall m, Forall (fun c => 32 <= c < 127) (url_error m);
  addr_clean : Forall (fun c => 32 <= c < 127) addr_error
}.

(** ** Layout *)
Inductive layout := OneLine | Indented.
Inductive bracket := Round | Square | Curly.
Definition opening (b : bracket) : str := match b with Round => lit "(" | Square => lit "[" | Curly => lit " {" end.
Definition closing (b : bracket) : str := match b with Round => lit ")" | Square => lit "]" | Curly => lit "}" end.
Definition newline (depth : nat) : str := 10 :: repeat 32 (4 * depth)%nat.
(** The entries within brackets: on one line with commas between them, or each on
    its own line, four blanks further in, with a comma after it. *)
Definition enclosed (L : layout) (depth : nat) (b : bracket) (l : list str) : str :=
  match L with
  | OneLine =>
      let blank := match b with Curly => lit " " | _ => [] end in
      opening b ++ blank ++ join (lit ", ") l ++ blank ++ closing b
  | Indented =>
      opening b ++ flat_map (fun t => newline (S depth) ++ t ++ lit ",") l ++ newline depth ++ closing b
  end.

Section Text.
Context (printable : char -> bool) (debug_f32 : f32 -> str) (debug_f64 : f64 -> str).
(** Strings are in quotes, without quotes, backslashes and chars that are not
    clean. *)
Inductive spelled : char -> str -> Prop :=
| spelled_itself c : clean printable c -> c <> 34 -> c <> 92 -> spelled c [c]
| spelled_named c n : In (c, n) [(0, 48); (9, 116); (10, 110); (13, 114); (34, 34); (92, 92)] -> spelled c [92; n]
| spelled_number c : ~ clean printable c -> ~ In c [0; 9; 10; 13] -> spelled c (lit "\u{" ++ show_hex c ++ lit "}").
Inductive in_quotes : str -> str -> Prop :=
| in_quotes_intro s l : Forall2 spelled s l -> in_quotes s (lit """" ++ List.concat l ++ lit """").

(** Fields by name, variants by name, numbers in decimal; the address in a variant
    [Ip] as it is. *)
Inductive laid_out (L : layout) : nat -> sv -> str -> Prop :=
| out_bool d b : laid_out L d (SvBool b) (if b then lit "true" else lit "false")
| out_uint d bits n : laid_out L d (SvUint bits n) (show_N n)
| out_f32 d x : laid_out L d (SvF32 x) (debug_f32 x)
| out_f64 d x : laid_out L d (SvF64 x) (debug_f64 x)
| out_str d s t : in_quotes s t -> laid_out L d (SvStr s) t
| out_none d : laid_out L d SvNone (lit "None")
| out_some d v t : laid_out L (S d) v t -> laid_out L d (SvSome v) (lit "Some" ++ enclosed L d Round [t])
| out_empty d : laid_out L d (SvSeq []) (lit "[]")
| out_seq d l ts : l <> [] -> Forall2 (laid_out L (S d)) l ts -> laid_out L d (SvSeq l) (enclosed L d Square ts)
| out_tuple d l ts : Forall2 (laid_out L (S d)) l ts -> laid_out L d (SvTuple l) (enclosed L d Round ts)
| out_struct d n l ts : Forall2 (fun f t => laid_out L (S d) (snd f) t) l ts ->
    laid_out L d (SvStruct n l) (n ++ enclosed L d Curly (map (fun p => fst (fst p) ++ lit ": " ++ snd p) (combine l ts)))
| out_unit d e i n : laid_out L d (SvUnitVariant e i n) n
| out_ip d e i s : laid_out L d (SvNewtypeVariant e i (lit "Ip") (SvStr s)) (lit "Ip" ++ enclosed L d Round [s])
| out_new d e i n v t : n <> lit "Ip" -> laid_out L (S d) v t ->
    laid_out L d (SvNewtypeVariant e i n v) (n ++ enclosed L d Round [t])
| out_tuple_variant d e i n l ts : Forall2 (laid_out L (S d)) l ts ->
    laid_out L d (SvTupleVariant e i n l) (n ++ enclosed L d Round ts)
| out_struct_variant d e i n l ts : Forall2 (fun f t => laid_out L (S d) (snd f) t) l ts ->
    laid_out L d (SvStructVariant e i n l) (n ++ enclosed L d Curly (map (fun p => fst (fst p) ++ lit ": " ++ snd p) (combine l ts))).
End Text.

(** ** Shapes *)
Local Open Scope string_scope.
Definition ierr_schema : schema :=
  ScEnum "SdpParserInternalError"
    [("UnknownAddressType", VNew ScStr);
     ("AddressTypeMismatch", VStruct [("found", units "AddressType" ["IpV4"; "IpV6"]); ("expected", units "AddressType" ["IpV4"; "IpV6"])]);
     ("Generic", VNew ScStr); ("Unsupported", VNew ScStr);
     ("Integer", VNew (ScStruct "ParseIntError" [("kind", units "IntErrorKind" ["Empty"; "InvalidDigit"; "PosOverflow"])]));
     ("Float", VNew (ScStruct "ParseFloatError" [("kind", units "FloatErrorKind" ["Empty"; "Invalid"])]))].
Definition perr_schema : schema :=
  ScEnum "SdpParserError"
    [("Line", VStruct [("error", ierr_schema); ("line", ScStr); ("line_number", ScUint 64)]);
     ("Unsupported", VStruct [("error", ierr_schema); ("line", ScStr); ("line_number", ScUint 64)]);
     ("Sequence", VStruct [("message", ScStr); ("line_number", ScUint 64)])].
Definition debug_schema : schema :=
  ScStruct "SdpSession"
    [("version", ScUint 64); ("origin", origin_schema true); ("session", ScOption ScStr); ("connection", ScOption (connection_schema true));
     ("bandwidth", ScSeq bandwidth_schema); ("timing", ScOption timing_schema); ("attribute", ScSeq (attr_schema true));
     ("media", ScSeq (media_schema true)); ("warnings", ScSeq perr_schema)].
Local Close Scope string_scope.

(** ** Sessions *)
(** No warning about an error of another crate (no accepted text has any). *)
Definition own_error (e : ierr) : Prop := match e with EDomain _ | EIpAddress => False | _ => True end.
Definition own_warning (w : perr) : Prop :=
  match w with PLine e _ _ | PUnsupported e _ _ => own_error e | PSequence _ _ => True end.
(** The floats of imageattr, which may be NaN even in accepted sessions. *)
Definition set_floats (x : image_set) : list f32 :=
  match set_sar x with Some (SRange a b) => [a; b] | Some (SDiscrete l) => l | None => [] end ++
  match set_par x with Some r => [par_min r; par_max r] | None => [] end ++
  match set_q x with Some q => [q] | None => [] end.
Definition sets_floats (l : image_set_list) : list f32 := match l with Sets l => flat_map set_floats l | SetsWildcard => [] end.
Definition images_are_numbers (s : session) : Prop :=
  Forall (fun t => match t with
    | TyAttribute (AImageAttr i) => Forall (fun x => f32_is_nan x = false) (sets_floats (img_send i) ++ sets_floats (img_recv i))
    | _ => True end) (session_items s).

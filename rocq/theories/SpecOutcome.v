(** * Specification vocabulary for what comes of a text (C70).  Only definitions. *)
From Coq Require Import List Arith NArith Ascii String.
From Verif Require Import Str Num Net Types Ext SpecApi SpecDoc SpecVal SpecUnsup SpecSeq SpecWarn SpecWhy SpecCause.
Import ListNotations.
Open Scope N_scope.
Open Scope list_scope.

Section WithExt.
Context {E : Ext}.

(** What a line is: there are these three. *)
Inductive line_kind := Meaning (t : sdp_type) | Unsupported | Refused (e : ierr).
Definition is_kind (line : str) (k : line_kind) : Prop :=
  match k with Meaning t => line_means line t | Unsupported => line_unsupported line | Refused e => refused line e end.

(** The warning for a line; the message only for ASCII chars (SpecWarn). *)
Definition warning_given (w : perr) (u : str * nat) : Prop :=
  exists m, w = PUnsupported (EUnsupported m) (fst u) (snd u) /\ (ascii_text (fst u) -> line_warns (fst u) m).
Definition none_unsupported (ls : list str) : Prop := forall x, In x ls -> ~ blank x -> ~ line_unsupported x.
Definition none_refused (ls : list str) : Prop := forall x e, In x ls -> ~ blank x -> ~ refused x e.

(** What comes of a text: in this order, *)
Inductive outcome (d : doc) (strict : bool) : res perr session -> Prop :=
(** it is empty or short; *)
| empty_text : doc_text d = [] -> outcome d strict (Err (PLine (complains "empty SDP") (doc_text d) 0))
| short_text : doc_text d <> [] -> byte_len (doc_text d) < 51 ->
    outcome d strict (Err (PLine (complains "string too short to be valid SDP") (doc_text d) 0))
(** if strict: the first line that is unsupported; *)
| unsupported_text : forall pre line post w, 51 <= byte_len (doc_text d) -> strict = true ->
    doc_lines d = pre ++ line :: post -> none_unsupported pre -> ~ blank line -> line_unsupported line ->
    warning_given w (line, List.length pre) -> outcome d strict (Err w)
(** the last line that is refused; *)
| refused_text : forall pre line post e, 51 <= byte_len (doc_text d) -> (strict = true -> none_unsupported (doc_lines d)) ->
    doc_lines d = pre ++ line :: post -> ~ blank line -> refused line e -> none_refused post ->
    outcome d strict (Err (PLine e line (List.length pre)))
(** the first rule about the order of lines that is broken; *)
| disordered_text : forall l us m n, 51 <= byte_len (doc_text d) -> kept 0 (doc_lines d) l us -> (strict = true -> us = []) ->
    broken l m n -> outcome d strict (Err (PSequence m n))
(** a session, with a warning for each unsupported line. *)
| accepted_text : forall ts us s, 51 <= byte_len (doc_text d) -> lines_read 0 (doc_lines d) ts us -> (strict = true -> us = []) ->
    (4 <= List.length ts)%nat -> Assembles ts s -> structural s -> Forall2 warning_given (s_warnings s) us ->
    outcome d strict (Ok s).
End WithExt.

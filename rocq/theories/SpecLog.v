(** * Specification vocabulary for the log (C71).  Only definitions. *)
From Coq Require Import List Arith NArith Ascii String.
From Verif Require Import Str Num Net Types Ext Show SpecApi SpecDoc SpecVal SpecPrint Log.
Import ListNotations.
Open Scope N_scope.
Open Scope list_scope.

Section WithExt.
Context {E : Ext}.

(** The word for what a line says; there is none for attributes. *)
Definition noun (ty : sdp_type) : option string :=
  match ty with
  | TyAttribute _ => None
  | TyBandwidth _ => Some "bandwidth"%string
  | TyConnection _ => Some "connection"%string
  | TyMedia _ => Some "media"%string
  | TyOrigin _ => Some "origin"%string
  | TySession _ => Some "session"%string
  | TyTiming _ => Some "timing"%string
  | TyVersion _ => Some "version"%string
  end.
(** What is written for a line: the word, and the text that is printed for it;
    for a media line the parts of the text without the number of ports, and with
    commas. *)
Definition written (ty : sdp_type) : str :=
  match ty with
  | TyMedia m =>
      show_media_value (ml_media m) ++ [44; 32] ++ show_N (ml_port m) ++ [44; 32] ++
      show_protocol_value (ml_proto m) ++ [44; 32] ++ show_format_list (ml_formats m)
  | _ => item_text ty
  end.
Definition trace_of (ty : sdp_type) : list record :=
  match noun ty with
  | Some w => [(Trace, of_string w ++ [58; 32] ++ written ty)]
  | None => []
  end.

(** What is written while the lines are read: for every line that means
    something, in order. *)
Inductive lines_trace : list str -> list record -> Prop :=
| trace_nil : lines_trace [] []
| trace_blank : forall line rest l, blank line -> lines_trace rest l -> lines_trace (line :: rest) l
| trace_line : forall line rest ty l, ~ blank line -> line_means line ty -> lines_trace rest l ->
    lines_trace (line :: rest) (trace_of ty ++ l)
| trace_other : forall line rest l, ~ blank line -> (forall ty, ~ line_means line ty) -> lines_trace rest l ->
    lines_trace (line :: rest) l.

(** What is written afterwards: the warnings of an accepted text. *)
Definition warned (r : res perr session) : list record :=
  match r with
  | Ok s => map (fun w => (Warn, of_string "Warning: " ++ show_perr w)) (s_warnings s)
  | Err _ | Panic => []
  end.

(** Texts that differ in attributes only. *)
Definition attribute_line (line : str) : Prop := ~ blank line /\ exists a, line_means line (TyAttribute a).
Definition but_attributes (d d' : doc) : Prop :=
  Forall2 (fun x y => x = y \/ (attribute_line x /\ attribute_line y)) (doc_lines d) (doc_lines d').

(** Everything a media line says but the number of ports. *)
Definition without_count (m : media_line) : media_line :=
  {| ml_media := ml_media m; ml_port := ml_port m; ml_port_count := 0; ml_proto := ml_proto m; ml_formats := ml_formats m |}.
End WithExt.

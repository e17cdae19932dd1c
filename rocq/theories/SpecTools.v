(** * Specification vocabulary for C49 (errors passed on) and C50 (the example
    program)

    Only definitions. *)
From Coq Require Import List NArith ZArith Bool Ascii String.
From Verif Require Import Str Num Net Types Ext Show Session SpecApi SpecDoc SpecVal Tools.
Import ListNotations.
Open Scope N_scope.
Open Scope list_scope.

(** ** C49 *)
(** The value a reader finds under a name. *)
Fixpoint field (name : string) (l : list (str * ser_value)) : option ser_value :=
  match l with
  | [] => None
  | (k, v) :: l => if str_eqb k (of_string name) then Some v else field name l
  end.
(** The text a reader can put together from the fields of an error. *)
Inductive retold (l : list (str * ser_value)) : str -> Prop :=
| retold_sequence : forall m n, field "type" l = Some (SerStr (of_string "Sequence")) ->
    field "message" l = Some (SerStr m) -> field "line" l = None ->
    field "line_number" l = Some (SerUsize n) ->
    retold l (of_string "Sequence error in line(" ++ show_N (N.of_nat n) ++ of_string "): " ++ m)
| retold_line : forall kind prefix m line n, field "type" l = Some (SerStr (of_string kind)) ->
    (kind, prefix) = ("Line", "Line error: ")%string \/
    (kind, prefix) = ("Unsupported", "Unsupported: ")%string ->
    field "message" l = Some (SerStr m) -> field "line" l = Some (SerStr line) ->
    field "line_number" l = Some (SerUsize n) ->
    retold l (of_string prefix ++ m ++ of_string " in line(" ++ show_N (N.of_nat n) ++ of_string "): " ++ line).
(** Errors without a cause of their own. *)
Definition uncaused (e : dyn_error) : Prop :=
  match e with
  | DynParser (PLine _ _ _) | DynParser (PUnsupported _ _ _) => False
  | DynInternal (EInteger _) | DynInternal (EFloat _) | DynInternal (EDomain _)
  | DynInternal EIpAddress => False
  | _ => True
  end.

Section WithExt.
Context {E : Ext}.

(** The errors a caller of [parse_sdp] can get hold of. *)
Definition obtained (sdp : str) (b : bool) (e : perr) : Prop :=
  parse_sdp sdp b = Err e \/ exists s, parse_sdp sdp b = Ok s /\ In e (s_warnings s).

(** ** C50 *)
(** Lines dropped by the program: the first char that is not white space is a
    semicolon. *)
Definition comment (l : str) : Prop := exists w x, l = w ++ 59 :: x /\ blank w.
(** [kept l k]: [k] are the lines of [l] that are not comments, in order. *)
Inductive kept : list str -> list str -> Prop :=
| kept_nil : kept [] []
| kept_comment : forall x l k, comment x -> kept l k -> kept (x :: l) k
| kept_line : forall x l k, ~ comment x -> kept l k -> kept (x :: l) (x :: k).
(** Bytes of the lines put together with two bytes between them. *)
Fixpoint joined_bytes (l : list str) : N :=
  match l with
  | [] => 0
  | [x] => byte_len x
  | x :: l => byte_len x + 2 + joined_bytes l
  end.
(** The lines of the file without comments are those of a session. *)
Definition file_good (d : doc) : Prop :=
  exists k ts s, kept (doc_lines d) k /\ 51 <= joined_bytes k /\
    lines_mean k ts /\ (4 <= List.length ts)%nat /\ Assembles ts s /\ structural s.
Definition expect_failure (x : str) : Prop := means x "--expect-failure".

(** The exit status of the program for its arguments and the file named by the
    first of them. *)
Inductive exits (fs : str -> file) : list str -> N -> Prop :=
| exits_no_file : forall args, (List.length args <= 1)%nat -> exits fs args 1
| exits_unreadable : forall p f rest, (forall t, fs f <> Contents t) -> exits fs (p :: f :: rest) 101
| exits_bad_flag : forall p f x rest t, fs f = Contents t -> ~ expect_failure x ->
    exits fs (p :: f :: x :: rest) 1
| exits_good : forall p f d, doc_ok d -> fs f = Contents (doc_text d) -> file_good d ->
    exits fs [p; f] 0
| exits_bad : forall p f d, doc_ok d -> fs f = Contents (doc_text d) -> ~ file_good d ->
    exits fs [p; f] 101
| exits_unexpected_good : forall p f x rest d, doc_ok d -> fs f = Contents (doc_text d) ->
    expect_failure x -> file_good d -> exits fs (p :: f :: x :: rest) 1
| exits_expected_bad : forall p f x rest d, doc_ok d -> fs f = Contents (doc_text d) ->
    expect_failure x -> ~ file_good d -> exits fs (p :: f :: x :: rest) 0.

End WithExt.

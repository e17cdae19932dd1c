(** * Specification vocabulary for what the example program prints (C72).  Only
    definitions. *)
From Coq Require Import List Arith NArith Ascii String.
From Verif Require Import Str Num Net Types Ext Show Session SpecApi SpecDoc SpecVal Tools SpecTools SpecUnsup SpecSeq SpecWarn SpecWhy SpecCause SpecOutcome Output.
Import ListNotations.
Open Scope N_scope.
Open Scope list_scope.

Section WithExt.
Context {E : Ext}.

(** [file_outcome t r]: what comes (C70) of the lines of a file that are not
    comments, put together again with CRLF between them. *)
Inductive put_together : list str -> doc -> Prop :=
| together_none : put_together [] {| d_lines := []; d_last := [] |}
| together_one : forall x, put_together [x] {| d_lines := []; d_last := x |}
| together_more : forall x y l d, put_together (y :: l) d ->
    put_together (x :: y :: l) {| d_lines := (x, CRLF) :: d_lines d; d_last := d_last d |}.
Definition file_outcome (t : str) (r : res perr session) : Prop :=
  exists d k d', doc_ok d /\ doc_text d = t /\ SpecTools.kept (doc_lines d) k /\ put_together k d' /\ outcome d' true r.

Context (debug : session -> str) (os_error : str -> str).
Inductive prints (fs : str -> file) : list str -> list printed -> N -> Prop :=
| prints_no_file : forall args, (List.length args <= 1)%nat ->
    prints fs args [Errput (of_string "Missing file name argument!")] 1
| prints_unopened : forall p f rest, fs f = CannotOpen ->
    prints fs (p :: f :: rest) [Panicked (of_string "Failed to open " ++ f ++ [58; 32] ++ os_error f)] 101
| prints_unread : forall p f rest, fs f = CannotRead ->
    prints fs (p :: f :: rest) [Panicked (of_string "Couldn't read " ++ f ++ [58; 32] ++ os_error f)] 101
| prints_bad_flag : forall p f x rest t, fs f = Contents t -> ~ expect_failure x ->
    prints fs (p :: f :: x :: rest) [Errput (of_string "Extra arguments passed!")] 1
| prints_good : forall p f t s, fs f = Contents t -> file_outcome t (Ok s) ->
    prints fs [p; f] [Out (of_string "Parsed SDP structure:" ++ [10] ++ debug s); Out (of_string "Successfully parsed SDP")] 0
| prints_bad : forall p f t e, fs f = Contents t -> file_outcome t (Err e) ->
    prints fs [p; f] [Panicked (of_string "Failed to parse SDP with error: " ++ show_perr e)] 101
| prints_unexpected_good : forall p f x rest t s, fs f = Contents t -> expect_failure x -> file_outcome t (Ok s) ->
    prints fs (p :: f :: x :: rest)
      [Out (of_string "Parsed SDP structure:" ++ [10] ++ debug s);
       Errput (of_string "Successfully parsed SDP that was expected to fail. You may need to update the example expectations.")] 1
| prints_expected_bad : forall p f x rest t e, fs f = Contents t -> expect_failure x -> file_outcome t (Err e) ->
    prints fs (p :: f :: x :: rest) [Out (of_string "Exited with failure, as expected.")] 0.
End WithExt.

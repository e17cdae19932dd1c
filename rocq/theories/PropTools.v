(** * C49: errors passed on; C50: the example program *)
From Coq Require Import List NArith ZArith Bool Ascii String Lia.
From Verif Require Import Str Num Net Types Ext Show Session SpecApi SpecDoc SpecVal Tools SpecTools PTools.
Import ListNotations.
Open Scope N_scope.
Open Scope list_scope.

(** ** C49 *)
(** As many fields as announced, no name twice. *)
Theorem C49_shape : forall e : perr,
  ser_name (serialize_perr e) = of_string "error" /\
  ser_len (serialize_perr e) = List.length (ser_fields (serialize_perr e)) /\
  NoDup (map fst (ser_fields (serialize_perr e))).
Proof. exact serialized_shape. Qed.

(** What is displayed can be put together from the fields, and nothing is
    lost, not even the kind of an internal error. *)
Theorem C49_retold : forall e : perr, retold (ser_fields (serialize_perr e)) (show_perr e).
Proof. exact serialized_retold. Qed.
Theorem C49_distinct : forall a b : perr, serialize_perr a = serialize_perr b -> a = b.
Proof. exact serialized_inj. Qed.

(** The number is that of a line of the text, and the line given is that line. *)
Theorem C49_points_at_line : forall (E : Ext) sdp b e, 51 <= byte_len sdp -> obtained sdp b e ->
  exists n line, field "line_number" (ser_fields (serialize_perr e)) = Some (SerUsize n) /\
    nth_error (lines sdp) n = Some line /\
    (field "line" (ser_fields (serialize_perr e)) = None \/
     field "line" (ser_fields (serialize_perr e)) = Some (SerStr line)).
Proof. exact @obtained_line. Qed.

(** Not always the line at fault: an empty line put in front does not change the
    number reported here. *)
Theorem C49_numbers_follow_lines_refuted : forall E : Ext, exists sdp m n,
  parse_sdp sdp true = Err (PSequence m n) /\ parse_sdp (crlf ++ sdp) true = Err (PSequence m n) /\
  nth_error (lines sdp) n <> nth_error (lines (crlf ++ sdp)) n.
Proof.
  intro E. exists (join crlf [lit "v=0"; lit "s=-"; lit "o=- 0 0 IN IP6 ::1"; lit "t=0 0"; lit "c=IN IP6 ::1"; lit "a=sendrecv"]).
  eexists _, _. split; [vm_compute; reflexivity|]. split; [vm_compute; reflexivity|]. vm_compute. discriminate.
Qed.

(** Causes: each is shown within the error it is the cause of, so a chain of
    causes is finite; none is withheld. *)
Theorem C49_causes : forall e x, dyn_source e = Some x ->
  exists a b, show_dyn e = a ++ show_dyn x ++ b /\ a <> [].
Proof. exact source_within. Qed.
Theorem C49_no_cause : forall e, dyn_source e = None <-> uncaused e.
Proof. exact source_none. Qed.

Example C49_example : forall E : Ext,
  exists e, parse_sdp (join crlf [lit "v=0"; lit "o=- 0 0 IN IP6 ::1"; lit "s=-"; lit "t=0 x"; lit "a=sendrecv"; lit "a=recvonly"]) false = Err e /\
    ser_fields (serialize_perr e) =
      [ (lit "type", SerStr (lit "Line"));
        (lit "message", SerStr (lit "Integer parsing error: invalid digit found in string"));
        (lit "line", SerStr (lit "t=0 x")); (lit "line_number", SerUsize 3) ] /\
    exists i, dyn_source (DynParser e) = Some i /\ dyn_source i = Some (DynInt IntInvalidDigit).
Proof.
  intro E. eexists. split; [vm_compute; reflexivity|]. split; [reflexivity|]. eexists. split; reflexivity.
Qed.

(** ** C50 *)
Theorem C50_exit_status : forall (E : Ext) fs args c,
  (forall f t, fs f = Contents t -> (Z.of_nat (List.length t) < 1073741824)%Z) ->
  (exits fs args c <-> file_parser args fs = c).
Proof. exact @exit_status. Qed.

Definition good_file : list str :=
  [ lit "; a comment"; lit "v=0"; lit "o=- 0 0 IN IP6 ::1"; lit "  ;another"; lit "s=-"; lit "t=0 0";
    lit "c=IN IP6 ::1"; lit "a=sendrecv"; [] ].
Definition bad_file : list str := good_file ++ [lit "a=unknown"].
Definition files (f : str) : file :=
  if str_eqb f (lit "good.sdp") then Contents (join [10] good_file)
  else if str_eqb f (lit "bad.sdp") then Contents (join crlf bad_file)
  else if str_eqb f (lit "directory") then CannotRead
  else CannotOpen.
Example C50_example : forall E : Ext,
  let run l := file_parser (lit "file_parser" :: l) files in
  run [lit "good.sdp"] = 0 /\ run [lit "bad.sdp"] = 101 /\
  run [lit "good.sdp"; lit "--Expect-Failure"] = 1 /\ run [lit "bad.sdp"; lit "--expect-failure"] = 0 /\
  run [lit "good.sdp"; lit "--verbose"] = 1 /\ run [] = 1 /\
  run [lit "none.sdp"; lit "--expect-failure"] = 101 /\ run [lit "directory"; lit "--verbose"] = 101.
Proof. intro E. vm_compute. repeat (split; [reflexivity|]). reflexivity. Qed.
Example C50_sizes : forall f t, files f = Contents t -> (Z.of_nat (List.length t) < 1073741824)%Z.
Proof.
  intros f t. unfold files. destruct (str_eqb f _); [intro H; injection H as <-; reflexivity|].
  destruct (str_eqb f _); [intro H; injection H as <-; reflexivity|]. destruct (str_eqb f _); discriminate.
Qed.

(** "Extra arguments passed!" is only ever said of the second argument. *)
Theorem C50_extra_arguments_refuted : forall E : Ext, exists fs p f x y,
  y <> of_string "--expect-failure" /\ file_parser [p; f; x; y] fs = 0.
Proof.
  intro E. exists files, [], (lit "bad.sdp"), (lit "--expect-failure"), (lit "--verbose").
  split; [discriminate|vm_compute; reflexivity].
Qed.

(** The program does not always agree with the parser on the text of the file,
    even without comment lines: the last line end does not count. *)
Theorem C50_agrees_with_parser_refuted : forall E : Ext, exists fs p f t s,
  fs f = Contents t /\ (forall l, In l (lines t) -> ~ comment l) /\
  parse_sdp t true = Ok s /\ file_parser [p; f] fs <> 0.
Proof.
  intro E.
  pose (t := join crlf [lit "v=0"; lit "o=- 0 0 IN IP6 ::1"; lit "s=fifteen letters"; lit "t=0 0"; []]).
  assert (P : exists s, parse_sdp t true = Ok s) by (eexists; vm_compute; reflexivity). destruct P as (s & P).
  exists (fun _ => Contents t), [], [], t, s. split; [reflexivity|]. split.
  - intros l I. vm_compute in I. intros (w & x & L & B).
    destruct w as [|c w].
    + repeat (destruct I as [<-|I]; [discriminate L|]). destruct I.
    + inversion B as [|c' w' W _]; subst. repeat (destruct I as [I|I]; [injection I as <- _; discriminate W|]). destruct I.
  - split; [exact P|]. vm_compute. discriminate.
Qed.

Definition theorems := (C49_shape, C49_retold, C49_distinct, C49_points_at_line,
  C49_numbers_follow_lines_refuted, C49_causes, C49_no_cause, C50_exit_status,
  C50_extra_arguments_refuted, C50_agrees_with_parser_refuted).
Print Assumptions theorems.

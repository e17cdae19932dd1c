(** * C72: what the example program prints *)
From Coq Require Import List NArith ZArith Bool Ascii String Lia.
From Verif Require Import Str Num Net Types Ext Ext0 Show Session SpecApi SpecDoc SpecVal Tools SpecTools.
From Verif Require Import SpecUnsup SpecSeq SpecWarn SpecWhy SpecCause SpecOutcome Output SpecOutput PDoc2 POutput.
Import ListNotations.
Open Scope N_scope.
Open Scope list_scope.

(** With and without what is printed it is the same program (C50). *)
Theorem C72_status : forall (E : Ext) debug os_error pm args fs,
  snd (file_parser_run debug os_error pm args fs) = file_parser args fs.
Proof. exact @run_status. Qed.

(** What is printed, for all arguments and files. *)
Theorem C72_prints : forall (E : Ext) debug os_error pm, ext_total E -> forall args fs,
  (forall f t, fs f = Contents t -> (Z.of_nat (List.length t) < 1073741824)%Z) -> forall out status,
  file_parser_run debug os_error pm args fs = (out, status) -> prints debug os_error fs args out status.
Proof.
  intros E debug os_error pm T args fs L out status H. pose proof (run_prints debug os_error pm T args fs L) as P. rewrite H in P. exact P.
Qed.

(** The line named by an error is found by counting the lines of the file from 0,
    without comments; *)
Theorem C72_named_line : forall (E : Ext) t p e line n, file_outcome t (Err p) -> p = PLine e line n \/ p = PUnsupported e line n ->
  exists d k, doc_ok d /\ doc_text d = t /\ SpecTools.kept (doc_lines d) k /\
    (nth_error k n = Some line \/ joined_bytes k < 51).
Proof. exact @named_line. Qed.
(** so the number need not be that of the line in the file, counted from 0 or 1. *)
Definition commented : list str :=
  [ lit "; two lines"; lit "; of comment"; lit "v=0"; lit "o=- 0 0 IN IP6 ::1"; lit "s=name"; lit "t=0 0"; lit "c=IN IP6 ::1"; lit "a=foo" ].
Theorem C72_number_in_file_refuted : forall (E : Ext) debug os_error pm, exists t e line n,
  file_parser_run debug os_error pm [[]; []] (fun _ => Contents t) =
    ([Panicked (of_string "Failed to parse SDP with error: " ++ show_perr (PUnsupported e line n))], 101) /\
  nth_error (lines t) n <> Some line /\ nth_error (lines t) (Nat.pred n) <> Some line.
Proof.
  intros E debug os_error pm. exists (join [10] commented), (EUnsupported (lit "Unknown attribute type foo")), (lit "a=foo"), 5%nat.
  split; [vm_compute; reflexivity|]. split; vm_compute; discriminate.
Qed.

(** Concrete cases. *)
Definition files (f : str) : file :=
  if str_eqb f (lit "good.sdp") then Contents (join [10] (firstn 7 commented))
  else if str_eqb f (lit "bad.sdp") then Contents (join crlf commented)
  else if str_eqb f (lit "directory") then CannotRead
  else CannotOpen.
Definition shown (s : session) : str := show_N (s_version s).
Definition run (E : Ext) (l : list str) := file_parser_run shown (fun _ => lit "(os error)") [] (lit "file_parser" :: l) files.
Example C72_examples : forall E : Ext,
  run E [] = ([Errput (lit "Missing file name argument!")], 1) /\
  run E [lit "good.sdp"] = ([Out (lit "Parsed SDP structure:" ++ [10; 48]); Out (lit "Successfully parsed SDP")], 0) /\
  run E [lit "good.sdp"; lit "-v"] = ([Errput (lit "Extra arguments passed!")], 1) /\
  run E [lit "bad.sdp"] =
    ([Panicked (lit "Failed to parse SDP with error: Unsupported: Unsupported parsing error: Unknown attribute type foo in line(5): a=foo")], 101) /\
  run E [lit "bad.sdp"; lit "--EXPECT-failure"; lit "-v"] = ([Out (lit "Exited with failure, as expected.")], 0) /\
  run E [lit "none"; lit "--expect-failure"] = ([Panicked (lit "Failed to open none: (os error)")], 101) /\
  run E [lit "directory"] = ([Panicked (lit "Couldn't read directory: (os error)")], 101).
Proof. intro E. vm_compute. repeat (split; [reflexivity|]). reflexivity. Qed.

Definition theorems := (C72_status, C72_prints, C72_named_line, C72_number_in_file_refuted).
Print Assumptions theorems.

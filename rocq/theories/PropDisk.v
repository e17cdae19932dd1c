(** * C88: encodings of files and texts *)
From Coq Require Import List NArith ZArith Ascii String Lia.
From Verif Require Import Str Num Net Types Ext Session Tools Fuzz Disk SpecFuzz SpecDoc SpecTools Ext0.
From Verif Require Import PDisk.
Import ListNotations.
Open Scope N_scope.
Open Scope list_scope.

(** A text that begins with a byte order mark (U+FEFF) is never accepted,
    whatever follows it, in neither mode. *)
Theorem C88_bom : forall (E : Ext) t strict r, parse_sdp (65279 :: t) strict <> Ok r.
Proof. exact @bom_text. Qed.

(** The example program reads a file as a text exactly if its bytes are the
    UTF-8 of this text. *)
Theorem C88_contents : forall disk f t, disk_file disk f = Contents t <->
  Forall scalar t /\ disk f = Some (flat_map utf8 t).
Proof. exact contents_iff. Qed.

(** Its exit status for files given by their bytes, as C50 describes it. *)
Theorem C88_status : forall (E : Ext) disk args c,
  (forall f data, disk f = Some data -> (Z.of_nat (List.length data) < 1073741824)%Z) ->
  (exits (disk_file disk) args c <-> file_parser args (disk_file disk) = c).
Proof. exact @disk_status. Qed.

(** For a file that is no UTF-8, or that is not there, it is 101, also if a
    failure is expected: the files of this kind cannot be examples of failures. *)
Theorem C88_not_utf8 : forall (E : Ext) disk p f rest,
  (forall t, Forall scalar t -> disk f <> Some (flat_map utf8 t)) ->
  file_parser (p :: f :: rest) (disk_file disk) = 101.
Proof. exact @not_utf8. Qed.

(** So it is for a file with a byte order mark, if no failure is expected. *)
Theorem C88_bom_file : forall (E : Ext) disk p f data, disk f = Some (239 :: 187 :: 191 :: data) ->
  file_parser [p; f] (disk_file disk) = 101.
Proof. exact @bom_file. Qed.

(** ** Examples *)
Definition good : list N := flat_map utf8 (join [10]
  [ lit "; a comment"; lit "v=0"; lit "o=- 0 0 IN IP6 ::1"; lit "s=-"; lit "t=0 0"; lit "c=IN IP6 ::1"; lit "a=sendrecv"; [] ]).
Definition disk (f : str) : option (list N) :=
  if str_eqb f (lit "good.sdp") then Some good
  else if str_eqb f (lit "mark.sdp") then Some ([239; 187; 191] ++ good)
  else if str_eqb f (lit "latin1.sdp") then Some (good ++ [105; 61; 252])
  else None.
Example C88_example : forall E : Ext,
  map (fun args => file_parser (lit "file_parser" :: args) (disk_file disk))
    [ [lit "good.sdp"]; [lit "mark.sdp"]; [lit "mark.sdp"; lit "--expect-failure"]; [lit "latin1.sdp"];
      [lit "latin1.sdp"; lit "--expect-failure"]; [lit "none.sdp"] ] = [0; 101; 0; 101; 101; 101].
Proof. intro E. vm_compute. reflexivity. Qed.

(** Assumptions of everything above. *)
Definition theorems := (C88_bom, C88_contents, C88_status, C88_not_utf8, C88_bom_file).
Print Assumptions theorems.

(** * C89: how many lines a session needs *)
From Coq Require Import List Arith NArith ZArith Ascii String Lia.
From Verif Require Import Str Num Net Types Ext AttrParse Media Session SpecDoc SpecItems Ext0.
From Verif Require Import PCount.
Import ListNotations.
Open Scope nat_scope.
Open Scope list_scope.

(** Every item of an accepted session and every warning has a line of its own,
    and the name of the session has another one, so that the text has at least
    as many line feeds as there are items and warnings. *)
Theorem C89_items : forall (E : Ext) sdp strict s, parse_sdp sdp strict = Ok s ->
  List.length (session_items s) + List.length (s_warnings s) <= count_occ N.eq_dec sdp c_lf.
Proof. exact @items_count. Qed.

(** At least three line feeds are needed, one more for each media section, and
    one for the connection data if there are any sections. *)
Theorem C89_least : forall (E : Ext) sdp strict s, parse_sdp sdp strict = Ok s ->
  3 + List.length (s_media s) + (match s_media s with [] => 0 | _ => 1 end) <= count_occ N.eq_dec sdp c_lf.
Proof. exact @lines_needed. Qed.

(** Texts whose lines end in carriage returns only are never accepted. *)
Theorem C89_carriage_returns : forall (E : Ext) sdp strict s, ~ In c_lf sdp -> parse_sdp sdp strict <> Ok s.
Proof. exact @no_line_feed. Qed.

(** ** Examples *)
Definition joined (c : char) (l : list str) : str := tl (flat_map (cons c) l).
Definition four : list str := [lit "v=0"; lit "o=someone-here 4294967296 1 IN IP6 ::1"; lit "s=-"; lit "t=0 0"].
Definition six : list str := four ++ [lit "c=IN IP6 ::1"; lit "m=audio 9 RTP/AVP 0"].
(** The bounds are reached, without a line feed at the end. *)
Example C89_example_four : exists s, parse_sdp (E := Ext0) (joined c_lf four) true = Ok s /\ List.length (session_items s) = 3 /\
  s_media s = [] /\ count_occ N.eq_dec (joined c_lf four) c_lf = 3.
Proof. eexists. split; [vm_compute; reflexivity|]. vm_compute. repeat split. Qed.
Example C89_example_six : exists s, parse_sdp (E := Ext0) (joined c_lf six) true = Ok s /\ List.length (session_items s) = 5 /\
  List.length (s_media s) = 1 /\ count_occ N.eq_dec (joined c_lf six) c_lf = 5.
Proof. eexists. split; [vm_compute; reflexivity|]. vm_compute. repeat split. Qed.
(** The same lines with carriage returns only. *)
Example C89_example_cr : forall s, parse_sdp (E := Ext0) (joined c_cr six) false <> Ok s.
Proof.
  intros s. apply C89_carriage_returns. apply (count_occ_not_In N.eq_dec). vm_compute. reflexivity.
Qed.

(** Assumptions of everything above. *)
Definition theorems := (C89_items, C89_least, C89_carriage_returns).
Print Assumptions theorems.

(** * C54: the order of the lines of a section does not matter

    [X] are lines of one section after the line of the session's name;
    [movable] says that there is no m= line in [X] and at most one of each of
    t=, c= and a=simulcast. *)
From Coq Require Import List NArith Bool Ascii String Permutation Lia.
From Verif Require Import Str Num Net Types Ext Show Session SpecApi SpecDoc SpecPrint SpecOrder POrder.
Import ListNotations.
Open Scope N_scope.
Open Scope list_scope.

(** The session is the same up to the order of its attributes and bandwidths, and
    so are the warnings up to their order and the numbers of their lines. *)
Theorem C54_order : forall (E : Ext) sdp sdp' A X X' B b s,
  lines sdp = A ++ X ++ B -> lines sdp' = A ++ X' ++ B -> Permutation X X' -> movable A X ->
  51 <= byte_len sdp' -> parse_sdp sdp b = Ok s ->
  exists s', parse_sdp sdp' b = Ok s' /\ session_alike s s' /\ Permutation (map said (s_warnings s)) (map said (s_warnings s')).
Proof. exact @order_irrelevant. Qed.
Theorem C54_accepted : forall (E : Ext) sdp sdp' A X X' B b,
  lines sdp = A ++ X ++ B -> lines sdp' = A ++ X' ++ B -> Permutation X X' -> movable A X ->
  51 <= byte_len sdp -> 51 <= byte_len sdp' ->
  ((exists s, parse_sdp sdp b = Ok s) <-> (exists s, parse_sdp sdp' b = Ok s)).
Proof. exact @order_accepted. Qed.

(** ** False of the code: without the conditions *)
Definition start : list str := [lit "v=0"; lit "o=- 1 2 IN IP6 ::1"; lit "s=-"].
Ltac notline := let l := fresh in let K := fresh in let T := fresh in
  intros (_ & l & K & T); vm_compute in K; first [discriminate K | injection K as <-; destruct T as (? & T); discriminate T].
Ltac notlines := repeat (apply Forall_cons; [notline|]); apply Forall_nil.
Ltac theline := split; [let K := fresh in intro K; apply Forall_inv in K; discriminate K
  | eexists; split; [vm_compute; reflexivity | eexists; reflexivity]].
Ltac atmostone := repeat (apply one_cons; split; [|first [intros _; notlines | let H := fresh in intro H; exfalso; revert H; notline]]);
  let H := fresh in intros [|] ? ? ? ? H; discriminate H.
(** Of two connections of the session the last one counts. *)
Definition c1 : list str := [lit "t=0 0"; lit "c=IN IP6 ::1"; lit "c=IN IP6 ::2"; lit "a=ice-lite"].
Definition c2 : list str := [lit "t=0 0"; lit "c=IN IP6 ::2"; lit "c=IN IP6 ::1"; lit "a=ice-lite"].
Theorem C54_two_connections_refuted : exists A X X', Permutation X X' /\ forall (E : Ext),
  Exists (line_is is_name) A /\ Forall (fun x => ~ line_is_media x) X /\
  at_most_one (line_is is_timing) X /\ at_most_one (line_is is_simulcast) X /\
  exists s s', parse_sdp (crlf_lines (A ++ X)) true = Ok s /\ parse_sdp (crlf_lines (A ++ X')) true = Ok s' /\
    s_connection s <> s_connection s'.
Proof.
  exists start, c1, c2. split; [apply perm_skip, perm_swap|]. intro E.
  eassert (H : parse_sdp (crlf_lines (start ++ c1)) true = Ok _) by (vm_compute; reflexivity).
  eassert (H' : parse_sdp (crlf_lines (start ++ c2)) true = Ok _) by (vm_compute; reflexivity).
  split; [right; right; left; theline|]. split; [notlines|]. split; [atmostone|]. split; [atmostone|].
  eexists. eexists. split; [exact H|]. split; [exact H'|]. vm_compute. discriminate.
Qed.
(** Likewise of two timings. *)
Definition t1 : list str := [lit "t=0 0"; lit "t=1 2"; lit "a=ice-lite"].
Definition t2 : list str := [lit "t=1 2"; lit "t=0 0"; lit "a=ice-lite"].
Theorem C54_two_timings_refuted : exists A X X', Permutation X X' /\ forall (E : Ext),
  Exists (line_is is_name) A /\ Forall (fun x => ~ line_is_media x) X /\
  at_most_one (line_is is_connection) X /\ at_most_one (line_is is_simulcast) X /\
  exists s s', parse_sdp (crlf_lines (A ++ X)) true = Ok s /\ parse_sdp (crlf_lines (A ++ X')) true = Ok s' /\
    s_timing s <> s_timing s'.
Proof.
  exists start, t1, t2. split; [apply perm_swap|]. intro E.
  eassert (H : parse_sdp (crlf_lines (start ++ t1)) true = Ok _) by (vm_compute; reflexivity).
  eassert (H' : parse_sdp (crlf_lines (start ++ t2)) true = Ok _) by (vm_compute; reflexivity).
  split; [right; right; left; theline|]. split; [notlines|]. split; [atmostone|]. split; [atmostone|].
  eexists. eexists. split; [exact H|]. split; [exact H'|]. vm_compute. discriminate.
Qed.
(** Of two simulcast attributes only the first one is checked. *)
Definition sim_start : list str := start ++ [lit "t=0 0"; lit "m=video 9 RTP/AVP 96"].
Definition sim1 : list str := [lit "c=IN IP6 ::1"; lit "a=rid:1 send"; lit "a=simulcast:send 1"; lit "a=simulcast:send 2"].
Definition sim2 : list str := [lit "c=IN IP6 ::1"; lit "a=rid:1 send"; lit "a=simulcast:send 2"; lit "a=simulcast:send 1"].
Theorem C54_two_simulcasts_refuted : exists A X X', Permutation X X' /\ forall (E : Ext),
  Exists (line_is is_name) A /\ Forall (fun x => ~ line_is_media x) X /\
  at_most_one (line_is is_timing) X /\ at_most_one (line_is is_connection) X /\
  (exists s, parse_sdp (crlf_lines (A ++ X)) true = Ok s) /\ (exists e, parse_sdp (crlf_lines (A ++ X')) true = Err e).
Proof.
  exists sim_start, sim1, sim2. split; [apply perm_skip, perm_skip, perm_swap|]. intro E.
  split; [right; right; left; theline|]. split; [notlines|]. split; [atmostone|]. split; [atmostone|].
  split; eexists; vm_compute; reflexivity.
Qed.

(** ** The theorems apply *)
Definition order_first : list str := sim_start.
Definition order_lines : list str :=
  [lit "a=rid:1 send"; lit "b=AS:64"; lit "a=simulcast:send 1"; lit "a=unheard-of:x"; lit ""; lit "c=IN IP6 ::1"; lit "a=sendonly"].
Definition order_moved : list str :=
  [lit "c=IN IP6 ::1"; lit "a=unheard-of:x"; lit "a=simulcast:send 1"; lit "a=sendonly"; lit "a=rid:1 send"; lit "b=AS:64"; lit ""].
Definition order_rest : list str := [lit "m=audio 9 RTP/AVP 0"; lit "c=IN IP6 ::1"; lit "a=recvonly"].
Example order_movable : forall E : Ext, movable order_first order_lines.
Proof.
  intro E. split; [right; right; left; theline|]. split; [notlines|]. split; [atmostone|]. split; [atmostone | atmostone].
Qed.
Example order_permutation : Permutation order_lines order_moved.
Proof.
  unfold order_lines, order_moved.
  apply (Permutation_cons_app [_; _; _; _] [_; _]). cbn [app]. apply (Permutation_cons_app [_; _; _; _] [_]). cbn [app].
  apply (Permutation_cons_app [_; _] [_; _]). cbn [app]. apply (Permutation_cons_app [_] [_; _]). cbn [app].
  apply (Permutation_cons_app [_; _] []). cbn [app]. apply Permutation_refl.
Qed.
Example order_lists : lines (crlf_lines (order_first ++ order_lines ++ order_rest)) = order_first ++ order_lines ++ order_rest /\
  lines (crlf_lines (order_first ++ order_moved ++ order_rest)) = order_first ++ order_moved ++ order_rest.
Proof. split; vm_compute; reflexivity. Qed.
Example order_accepted_example : forall E : Ext,
  exists s s', parse_sdp (crlf_lines (order_first ++ order_lines ++ order_rest)) false = Ok s /\
    parse_sdp (crlf_lines (order_first ++ order_moved ++ order_rest)) false = Ok s' /\ session_alike s s' /\ s <> s' /\
    map said (s_warnings s) = map said (s_warnings s') /\ s_warnings s <> s_warnings s' /\
    (exists e, parse_sdp (crlf_lines (order_first ++ order_lines ++ order_rest)) true = Err e).
Proof.
  intro E.
  eassert (H : parse_sdp (crlf_lines (order_first ++ order_lines ++ order_rest)) false = Ok _) by (vm_compute; reflexivity).
  destruct (C54_order E _ (crlf_lines (order_first ++ order_moved ++ order_rest)) _ _ _ _ false _
    (proj1 order_lists) (proj2 order_lists) order_permutation (order_movable E) ltac:(vm_compute; discriminate) H) as (s' & H' & A & _).
  eexists. exists s'. split; [exact H|]. split; [exact H'|]. split; [exact A|].
  eassert (H2 : parse_sdp (crlf_lines (order_first ++ order_moved ++ order_rest)) false = Ok _) by (vm_compute; reflexivity).
  rewrite H2 in H'. injection H' as <-. split; [discriminate|]. split; [reflexivity|]. split; [discriminate|].
  eexists. vm_compute. reflexivity.
Qed.

Definition theorems := (C54_order, C54_accepted, C54_two_connections_refuted, C54_two_timings_refuted, C54_two_simulcasts_refuted).
Print Assumptions theorems.

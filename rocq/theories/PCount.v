(** * Proofs: how many lines a session needs (C89) *)
From Coq Require Import List Arith NArith ZArith Lia Bool Ascii String.
From Coq Require Import ZifyBool ZifyNat ZifyN.
From Verif Require Import Str Num Net Types Ext AttrParse Media Session SpecDoc SpecItems PDoc2.
Import ListNotations.
Open Scope nat_scope.
Open Scope list_scope.

Lemma split_count : forall s, List.length (split c_lf s) = S (count_occ N.eq_dec s c_lf).
Proof.
  unfold split. induction s as [|x s IH]; [reflexivity|]. cbn [split_by count_occ].
  destruct (N.eqb_spec c_lf x) as [<-|K].
  - destruct (N.eq_dec c_lf c_lf) as [_|K]; [|destruct (K eq_refl)]. cbn [List.length]. rewrite IH. reflexivity.
  - destruct (N.eq_dec x c_lf) as [->|_]; [destruct (K eq_refl)|].
    destruct (split_by (N.eqb c_lf) s) as [|h t]; cbn [List.length] in *; lia.
Qed.
Lemma lines_of_count : forall l, List.length (lines_of l) <= List.length l.
Proof.
  induction l as [|x l IH]; [reflexivity|]. destruct l as [|y l].
  - cbn [lines_of]. destruct (is_empty x); cbn; lia.
  - change (lines_of (x :: y :: l)) with (strip_cr x :: lines_of (y :: l)). cbn [List.length] in *. lia.
Qed.
Lemma lines_count : forall s, List.length (lines s) <= S (count_occ N.eq_dec s c_lf).
Proof. intros s. unfold lines. etransitivity; [apply lines_of_count|]. rewrite split_count. reflexivity. Qed.
Lemma filter_count : forall {A} (f : A -> bool) l, List.length (filter f l) <= List.length l.
Proof. induction l as [|x l IH]; [reflexivity|]. cbn [filter]. destruct (f x); cbn [List.length]; lia. Qed.
Lemma last_count : forall {A} (l : list A), List.length (of_option (last_of l)) <= List.length l.
Proof. intros A l. unfold last_of. rewrite <- (rev_length l). destruct (rev l); cbn; lia. Qed.
Lemma first_count : forall {A} (l : list A), List.length (of_option (hd_error l)) <= List.length l.
Proof. intros A []; cbn; lia. Qed.
Lemma kinds_count : forall l,
  List.length (bandwidths l) + List.length (attributes l) + List.length (connections l) + List.length (timings l) <= List.length l.
Proof.
  unfold bandwidths, attributes, connections, timings. induction l as [|x l IH]; [reflexivity|]. cbn [flat_map List.length].
  rewrite !app_length. destruct x; cbn [List.length]; lia.
Qed.
Lemma section_count : forall x, List.length (media_items (section_media x)) <= List.length (section_lines x).
Proof.
  intros (m & l). unfold media_items, section_media, section_lines. cbn [m_media m_connection m_bandwidth m_attribute fst snd List.length].
  rewrite !app_length, !map_length. pose proof (kinds_count l). pose proof (first_count (connections l)).
  pose proof (fun f => filter_count f (attributes l)) as F. match goal with |- context[filter ?f] => specialize (F f) end. lia.
Qed.
Lemma sections_count : forall l, List.length (flat_map media_items (map section_media l)) <= List.length (flat_map section_lines l).
Proof.
  induction l as [|x l IH]; [reflexivity|]. cbn [map flat_map]. rewrite !app_length. pose proof (section_count x). lia.
Qed.

Section WithExt.
Context {E : Ext}.
Lemma reads_count : forall n ls ts ws, Reads n ls ts ws -> List.length ts + List.length ws <= List.length ls.
Proof. intros n ls ts ws R. induction R; cbn [List.length]; lia. Qed.
Lemma items_count : forall sdp b s, parse_sdp sdp b = Ok s ->
  List.length (session_items s) + List.length (s_warnings s) <= count_occ N.eq_dec sdp c_lf.
Proof.
  intros sdp b s P. apply document in P. destruct P as (_ & ts & ws & R & -> & _ & _ & A & _).
  apply reads_count in R. pose proof (lines_count sdp) as L.
  destruct A as (name & head & secs & -> & _ & _ & _ & Hb & Ha & Ht & Hc & Hm).
  unfold session_items. cbn [List.length] in *. rewrite !app_length, !map_length in *.
  rewrite Hb, Ha, Ht, Hc, Hm. pose proof (kinds_count head). pose proof (last_count (timings head)).
  pose proof (last_count (connections head)). pose proof (sections_count secs). lia.
Qed.
Lemma media_count : forall l, List.length l <= List.length (flat_map media_items l).
Proof. induction l as [|m l IH]; [reflexivity|]. cbn [flat_map]. rewrite app_length. unfold media_items at 1. cbn [List.length]. lia. Qed.
Lemma connected_count : forall l, Forall (fun m => present (m_connection m)) l ->
  2 * List.length l <= List.length (flat_map media_items l).
Proof.
  intros l F. induction F as [|m l (c & C) _ IH]; [reflexivity|]. cbn [flat_map]. rewrite app_length. unfold media_items at 1.
  rewrite C. cbn [of_option map app List.length]. lia.
Qed.
Lemma lines_needed : forall sdp b s, parse_sdp sdp b = Ok s ->
  3 + List.length (s_media s) + (match s_media s with [] => 0 | _ => 1 end) <= count_occ N.eq_dec sdp c_lf.
Proof.
  intros sdp b s P. pose proof (items_count _ _ _ P) as C. apply document in P.
  destruct P as (_ & ts & ws & _ & _ & _ & _ & _ & S). destruct (rule_timing _ S) as (t & T).
  unfold session_items in C. cbn [List.length] in C. rewrite !app_length, !map_length in C. rewrite T in C.
  cbn [of_option List.length] in C. pose proof (media_count (s_media s)) as M.
  destruct (rule_connection _ S) as [(c & K)|K].
  - rewrite K in C. cbn [of_option List.length] in C. destruct (s_media s); lia.
  - apply connected_count in K. destruct (s_media s); cbn [List.length] in *; lia.
Qed.
Lemma no_line_feed : forall sdp b s, ~ In c_lf sdp -> parse_sdp sdp b <> Ok s.
Proof.
  intros sdp b s N P. apply lines_needed in P. apply (count_occ_not_In N.eq_dec) in N. rewrite N in P. lia.
Qed.
End WithExt.

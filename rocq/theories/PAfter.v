(** * Proofs: lines after a document (C94) *)
From Coq Require Import List Arith NArith ZArith Lia Bool Ascii String.
From Coq Require Import ZifyBool ZifyNat ZifyN.
From Verif Require Import Str Num Net Types Ext AttrParse Media Session SpecDoc SpecSections SpecAfter.
From Verif Require Import StrLemmas PDoc PDoc2 PDoc3 PAhead.
Import ListNotations.
Open Scope nat_scope.
Open Scope list_scope.

Definition is_media (t : sdp_type) : bool := match t with TyMedia _ => true | _ => false end.
Definition plain (l : list sdp_type) : Prop := Forall (fun t => is_media t = false) l.
Definition headed (l : list sdp_type) : Prop := match l with [] => True | t :: _ => is_media t = true end.
Lemma session_plain : forall l, Forall session_item l -> plain l.
Proof. intros l F. eapply Forall_impl; [|exact F]. intros []; cbn; auto; contradiction. Qed.
Lemma media_plain : forall l, Forall media_item l -> plain l.
Proof. intros l F. eapply Forall_impl; [|exact F]. intros []; cbn; auto; contradiction. Qed.
Lemma sections_headed : forall l, headed (flat_map section_lines l).
Proof. intros [|(m & l) secs]; reflexivity. Qed.
Lemma app_cases : forall {A} (a b c d : list A), a ++ b = c ++ d -> exists x, (a = c ++ x /\ d = x ++ b) \/ (c = a ++ x /\ b = x ++ d).
Proof.
  intros A. induction a as [|x a IH]; intros b c d H; [exists c; right; auto|]. destruct c as [|y c].
  - exists (x :: a). left. auto.
  - cbn [app] in H. injection H as -> H. destruct (IH _ _ _ H) as (z & [(-> & ->)|(-> & ->)]); exists z; auto.
Qed.
Lemma plain_headed : forall x l, plain x -> headed (x ++ l) -> x = [].
Proof. intros [|t x] l P H; [reflexivity|]. inversion P as [|? ? K _]; subst. cbn in H. congruence. Qed.
(** Plain lines before and after a cut. *)
Lemma plain_cut : forall a b c d, plain a -> a ++ b = c ++ d -> headed d -> exists x, c = a ++ x /\ b = x ++ d.
Proof.
  intros a b c d P H D. destruct (app_cases _ _ _ _ H) as (x & [(-> & ->)|(-> & ->)]); [|eauto].
  assert (X : x = []). { apply (plain_headed x b); [|exact D]. apply Forall_app in P. exact (proj2 P). }
  subst x. exists []. rewrite !app_nil_r. auto.
Qed.
Lemma plain_same : forall a b c d, plain a -> plain c -> a ++ b = c ++ d -> headed b -> headed d -> a = c /\ b = d.
Proof.
  intros a b c d P Q H B D. destruct (plain_cut _ _ _ _ P H D) as (x & -> & ->).
  assert (X : x = []). { apply (plain_headed x d); [|exact B]. apply Forall_app in Q. exact (proj2 Q). }
  subst x. rewrite app_nil_r. auto.
Qed.
Lemma sections_cut : forall s1 s2 t, Forall section_ok s1 -> Forall section_ok s2 -> flat_map section_lines s1 ++ t = flat_map section_lines s2 ->
  s1 <> [] -> exists first m l x more, s1 = first ++ [(m, l)] /\ s2 = first ++ (m, l ++ x) :: more.
Proof.
  induction s1 as [|(m & l) s1 IH]; intros s2 t F1 F2 H N; [destruct (N eq_refl)|]. clear N.
  destruct s2 as [|(m' & l') s2]; [discriminate H|]. cbn [flat_map section_lines fst snd app] in H. injection H as <- H.
  inversion F1 as [|? ? (O1 & _) F1']; subst. inversion F2 as [|? ? (O2 & _) F2']; subst. cbn [fst snd] in *. rewrite <- app_assoc in H.
  destruct s1 as [|y s1].
  - cbn [flat_map app] in H. destruct (plain_cut _ _ _ _ (media_plain _ O1) H (sections_headed s2)) as (x & -> & _).
    exists [], m, l, x, s2. auto.
  - destruct (plain_same _ _ _ _ (media_plain _ O1) (media_plain _ O2) H) as (-> & K); [destruct y; reflexivity|apply sections_headed|].
    destruct (IH s2 t F1' F2' K) as (first & m2 & l2 & x & more & -> & ->); [discriminate|]. exists ((m, l') :: first), m2, l2, x, more. auto.
Qed.
Lemma section_longer : forall m l x, section_ok (m, l ++ x) -> media_longer (section_media (m, l)) (section_media (m, l ++ x)).
Proof.
  intros m l x (_ & C). unfold media_longer, section_media, begins. cbn [m_media m_bandwidth m_attribute m_connection fst snd] in *.
  split; [reflexivity|]. split; [|split].
  - exists (bandwidths x). unfold bandwidths. apply flat_map_app.
  - unfold attributes. rewrite flat_map_app, filter_app. eauto.
  - unfold connections in *. rewrite flat_map_app in *. destruct (flat_map _ l) as [|c cs]; [left; reflexivity|right; reflexivity].
Qed.
Section WithExt.
Context {E : Ext}.
Lemma after_assembled : forall ts t s s', Assembles ts s -> Assembles (ts ++ t) s' -> session_longer s s'.
Proof.
  intros ts t s s' (name & head & secs & -> & Nm & Hh & Hs & Hb & Ha & Ht & Hc & Hm) (name' & head' & secs' & H & Nm' & Hh' & Hs' & Hb' & Ha' & Ht' & Hc' & Hm').
  cbn [app] in H. injection H as Ev Eo En H. rewrite <- app_assoc in H.
  assert (Ns : s_session s' = s_session s).
  { rewrite <- En in Nm'. rewrite (session_name_unique _ _ Nm), (session_name_unique _ _ Nm'). reflexivity. }
  unfold session_longer. split; [auto|]. split; [auto|]. split; [exact Ns|].
  destruct secs as [|y secs].
  - left. split; [rewrite Hm; reflexivity|]. cbn [flat_map app] in H.
    destruct (plain_cut _ _ _ _ (session_plain _ Hh) H (sections_headed secs')) as (x & -> & _).
    rewrite Hb, Ha, Hb', Ha'. unfold begins, bandwidths, attributes. rewrite !flat_map_app. eauto.
  - right. destruct (plain_same _ _ _ _ (session_plain _ Hh) (session_plain _ Hh') H) as (-> & K); [destruct y; reflexivity|apply sections_headed|].
    split. { unfold same_head. rewrite Hb, Ha, Ht, Hc, Hb', Ha', Ht', Hc'. repeat split; congruence. }
    destruct (sections_cut _ _ _ Hs Hs' K) as (first & m & l & x & more & Q & Q'); [discriminate|]. rewrite Hm, Hm', Q, Q'.
    exists (map section_media first), (section_media (m, l)), (section_media (m, l ++ x)), (map section_media more). rewrite !map_app.
    split; [reflexivity|]. split; [reflexivity|]. apply section_longer. rewrite Q' in Hs'. apply Forall_app in Hs'. destruct Hs' as (_ & Hs'). inversion Hs'; assumption.
Qed.
Lemma longer : forall a q b b' s s', parse_sdp (a ++ [c_lf]) b = Ok s -> parse_sdp (a ++ c_lf :: q) b' = Ok s' -> session_longer s s'.
Proof.
  intros a q b b' s s' P P'. apply document in P. apply document in P'.
  destruct P as (_ & ts & ws & R & _ & _ & _ & A & _). destruct P' as (_ & ts' & ws' & R' & _ & _ & _ & A' & _).
  rewrite (lines_lf_app _ a q (le_n _)) in R'. apply Reads_app in R'. destruct R' as (t1 & t2 & w1 & w2 & R1 & _ & -> & _).
  pose proof (Reads_types _ _ _ _ R _ _ _ R1) as <-. exact (after_assembled _ _ _ _ A A').
Qed.
End WithExt.

(** * Proofs: parsed values are well-formed (C12) *)
From Coq Require Import List NArith ZArith Lia Bool Ascii String.
From Verif Require Import Str Num Net Types Ext Show Session SpecApi SpecDoc SpecVal SpecItems SpecPrint.
From Verif Require Import StrLemmas NumLemmas NetLemmas PDoc PDoc2 PVal PVal2 PVal8 PVal11 PPrint PPrint2.
Import ListNotations.
Open Scope N_scope.
Open Scope list_scope.

Lemma words_all : forall v l, words v l -> Forall word l.
Proof. intros v l H. apply Forall_forall. intros t Ht. exact (words_word _ _ _ H Ht). Qed.
Lemma core_ends : forall v t, core v t -> t = [] \/ (starts_solid t /\ ends_solid t).
Proof.
  intros v t (w1 & w2 & _ & _ & _ & [H|[H1 H2]]); [left; exact H|]. right. split; [exact H1 | exact H2].
Qed.
Lemma ends_tail : forall a c b, ends_solid (a ++ c :: b) -> b <> [] -> ends_solid b.
Proof.
  intros a c b (d & x & Eq & W) N. destruct (exists_last N) as (y & e & ->).
  replace (a ++ c :: y ++ [e]) with ((a ++ c :: y) ++ [e]) in Eq by (rewrite <- app_assoc; reflexivity).
  apply app_inj_tail in Eq. destruct Eq as [_ <-]. exists e, y. auto.
Qed.
Lemma ends_blank_tail : forall a c, is_ws c = true -> ~ ends_solid (a ++ [c]).
Proof. intros a c H (d & x & Eq & W). apply app_inj_tail in Eq. destruct Eq. congruence. Qed.
(** Behind a blank at which the value was cut, there is something solid. *)
Lemma ends_after : forall a c b, is_ws c = true -> ends_solid (a ++ c :: b) -> ends_solid b.
Proof.
  intros a c b W H. apply (ends_tail a c); [exact H|]. intros ->. exact (ends_blank_tail a c W H).
Qed.
Lemma starts_before : forall a c b, is_ws c = true -> starts_solid (a ++ c :: b) -> starts_solid a.
Proof.
  intros a c b W (d & x & Eq & D). destruct a as [|e a].
  - inversion Eq; subst. congruence.
  - inversion Eq; subst. exists d, a. auto.
Qed.
Lemma fields_no : forall c v l, fields c v l -> Forall (fun t => ~ In c t) l.
Proof. intros c v l F. induction F; constructor; auto. Qed.
Lemma fields_from : forall c d v l, fields c v l -> ~ In d v -> Forall (fun t => ~ In d t) l.
Proof.
  intros c d v l F. induction F as [s N|t s l N F IH]; intro H; [repeat constructor; exact H|].
  constructor; [intro K; apply H, in_or_app; auto|]. apply IH. intro K. apply H, in_or_app. right. right. exact K.
Qed.
Lemma fields_nonempty : forall c v l, fields c v l -> l <> [].
Proof. intros c v l F. destruct F; discriminate. Qed.
Lemma F2_length : forall A B (R : A -> B -> Prop) l m, Forall2 R l m -> List.length l = List.length m.
Proof. intros A B R l m F. induction F; cbn [List.length]; congruence. Qed.
Lemma word_no_blank : forall t, word t -> no_blank t.
Proof. intros t [_ H]. exact H. Qed.
Lemma fields_no_blank : forall c v l, fields c v l -> no_blank v -> Forall no_blank l.
Proof.
  intros c v l F. induction F as [s N|t s l N F IH]; intro H; [repeat constructor; exact H|].
  apply Forall_app in H. destruct H as [H1 H2]. inversion H2; subst. constructor; auto.
Qed.
Lemma in_pairs_word : forall n l ps, (List.length l <= n)%nat -> in_pairs l = Some ps -> Forall word l ->
  Forall (fun nv => word (fst nv) /\ word (snd nv)) ps.
Proof.
  induction n as [|n IH]; intros l ps L H F.
  - destruct l; [|cbn in L; lia]. inversion H. constructor.
  - destruct l as [|a [|b l]]; try discriminate; [inversion H; constructor|].
    cbn [in_pairs] in H. destruct (in_pairs l) as [p|] eqn:P; [|discriminate].
    inversion H. inversion F as [|? ? Fa F']; subst. inversion F' as [|? ? Fb F'']; subst.
    constructor; [split; assumption|]. apply (IH l); [cbn in L; lia | exact P | exact F''].
Qed.
Lemma given_word : forall is ps vs, given is ps vs -> Forall (fun nv => word (fst nv) /\ word (snd nv)) ps ->
  Forall word vs.
Proof.
  intros is ps vs G. induction G; intro F; inversion F as [|? ? Fa F']; subst; auto.
  constructor; [exact (proj2 Fa) | auto].
Qed.
Lemma others_not : forall known ps us, others known ps us -> Forall (fun nv => ~ known (fst nv)) us.
Proof. intros known ps us O. induction O; auto. Qed.
Lemma pairs_tokens : forall known ts ps us, Forall2 (fun t nv => cut 61 t (fst nv) (snd nv)) ts ps ->
  Forall (fun t => ~ In 59 t) ts -> others known ps us ->
  Forall (unknown_token known) (map (fun nv => fst nv ++ 61 :: snd nv) us).
Proof.
  intros known ts ps us F N O.
  assert (P : Forall (fun nv => ~ In 59 (fst nv ++ 61 :: snd nv) /\ ~ In 61 (fst nv)) ps).
  { clear O. induction F as [|t nv ts ps [Et C] F IH]; [constructor|]. inversion N; subst.
    constructor; [split; assumption | auto]. }
  apply Forall_forall. intros t Ht. apply in_map_iff in Ht. destruct Ht as (nv & <- & Hn).
  pose proof (Forall_in _ _ _ P (others_sub _ _ _ O _ Hn)) as [P1 P2].
  split; [exact P1|]. exists (fst nv), (snd nv). split; [split; [reflexivity | exact P2]|].
  exact (Forall_in _ _ _ (others_not _ _ _ O) Hn).
Qed.

Section WithExt.
Context {E : Ext}.
Context (X : ext_ok E).

Lemma reads_wf : forall s a, reads_address s a -> address_wf a.
Proof.
  intros s a [(_ & i & _ & ->)|(_ & h & H & ->)]; [exact I|]. destruct h; cbn [host_address address_wf]; try exact I.
  exact (host_domain_stable E X _ _ H).
Qed.
Lemma reads_typed_wf : forall t s a, reads_typed t s a -> typed_wf a.
Proof.
  intros t s a [(d & R & ->)|[(_ & n & _ & ->)|(_ & n & _ & ->)]]; try exact I.
  apply reads_wf in R. exact R.
Qed.
Lemma rid_params_wf : forall ts p dep, rid_params_value ts p dep -> Forall (fun t => ~ In 59 t) ts ->
  Forall (unknown_token (fun n => Exists (is_word n) rid_names)) (rid_unknown p) /\
  Forall (fun d => ~ In 44 d /\ ~ In 59 d) dep.
Proof.
  intros ts p dep (ps & F & _ & _ & _ & _ & _ & _ & (vs & ds & G & Fs & ->) & us & O & ->) H.
  split; [exact (pairs_tokens _ _ _ _ F H O)|].
  assert (V : Forall (fun v => ~ In 59 v) vs).
  { assert (P : Forall (fun nv => ~ In 59 (snd nv)) ps).
    { clear - F H. induction F as [|t nv ts ps [Et C] F IH]; [constructor|]. inversion H; subst.
      constructor; [|auto]. intro K. apply H2, in_or_app. right. right. exact K. }
    clear - G P. induction G; inversion P; subst; auto. }
  clear - Fs V. induction Fs as [|v d vs ds Fv Fs IH]; [constructor|]. inversion V; subst.
  cbn [List.concat]. apply Forall_app. split; [|auto].
  pose proof (fields_no _ _ _ Fv) as A. pose proof (fields_from _ 59 _ _ Fv H1) as B.
  apply Forall_forall. intros t Ht. split; [exact (Forall_in _ _ _ A Ht) | exact (Forall_in _ _ _ B Ht)].
Qed.
Lemma simulcast_list_wf : forall t l, simulcast_list_value t l -> word t ->
  Forall (fun v => v <> [] /\ Forall simulcast_id_wf v) l /\ l <> [].
Proof.
  intros t l (body & vs & B & F & V) W. apply word_no_blank in W.
  assert (Hb : no_blank body).
  { destruct B as [[-> _]|[_ ->]]; [|exact W]. apply Forall_app in W. destruct W as [_ W]. inversion W. assumption. }
  pose proof (fields_no_blank _ _ _ F Hb) as Hv. pose proof (fields_no _ _ _ F) as Hn.
  pose proof (fields_nonempty _ _ _ F) as He. split; [|destruct V; congruence]. clear - V Hv Hn.
  induction V as [|t x ts l V0 V IH]; [constructor|].
  inversion Hv as [|? ? Ht Hts]; subst. inversion Hn as [|? ? Gt Gts]; subst. constructor; [|auto].
  destruct V0 as (alts & Fa & A). pose proof (fields_nonempty _ _ _ Fa) as Ne.
  split; [destruct A; congruence|].
  pose proof (fields_no_blank _ _ _ Fa Ht) as H1. pose proof (fields_no _ _ _ Fa) as H2.
  pose proof (fields_from _ 59 _ _ Fa Gt) as H3. clear - A H1 H2 H3.
  induction A as [|t i ts l A0 A IH]; [constructor|].
  inversion H1; inversion H2; inversion H3; subst. constructor; [|auto].
  unfold simulcast_id_value in A0. unfold simulcast_id_wf. destruct (sid_paused i).
  - subst t. inversion H4; subst. cbn [In] in *. split; [assumption|]. split; [tauto|]. split; [tauto|]. discriminate.
  - destruct A0 as [-> N]. split; [assumption|]. split; [assumption|]. split; [assumption|]. intros _. exact N.
Qed.
Lemma float_range_pos : forall inner x y, float_range inner x y -> f_neg 31 x = false /\ f_neg 31 y = false.
Proof.
  intros inner x y (a & b & F & Px & Py & _). pose proof (fields_no _ _ _ F) as N.
  inversion N as [|? ? Na N']; subst. inversion N' as [|? ? Nb _]; subst.
  split; eapply (f32_read_pos E X); try eassumption; apply contains_not_In; assumption.
Qed.
Lemma image_set_value_wf : forall s x, image_set_value s x -> image_set_wf x.
Proof.
  intros s x (inner & xt & yt & opts & _ & _ & _ & _ & (vs & rs & _ & Fs & Es) & (vp & rp & _ & Fp & Ep) & _).
  split.
  - rewrite Es. destruct (last_of (somes rs)) as [r|] eqn:L; [|exact I].
    assert (S : exists v, sar_value v (Some r)).
    { apply last_of_In in L. unfold somes in L. apply in_flat_map in L. destruct L as (o & Ho & Hr).
      destruct o as [r'|]; [|destruct Hr]. destruct Hr as [->|[]].
      clear - Fs Ho. induction Fs; [destruct Ho|]. destruct Ho as [->|Ho]; [eauto | auto]. }
    destruct S as (v & [(_ & y & _ & Eq)|(i & _ & [(_ & a & b & R & Eq)|[(_ & _ & ts & l & _ & _ & A & Eq)|(_ & _ & Eq)]])]);
      try discriminate; inversion Eq; subst.
    + exact I.
    + exact (float_range_pos _ _ _ R).
    + destruct l as [|y [|z l]]; [exact I..|exact A].
  - rewrite Ep. destruct (last_of rp) as [r|] eqn:L; [|exact I]. apply last_of_In in L.
    assert (S : exists v, par_value v r). { clear - Fp L. induction Fp; [destruct L|]. destruct L as [->|L]; [eauto | auto]. }
    destruct S as (v & i & _ & R). exact (float_range_pos _ _ _ R).
Qed.
Lemma image_list_value_wf : forall ts l, image_list_value ts l -> image_list_wf l /\ l <> Sets [].
Proof.
  intros ts l [(_ & ->)|(N & sets & F & ->)]; [split; [exact I | discriminate]|]. cbn [image_list_wf]. split.
  - clear N. induction F; constructor; [eapply image_set_value_wf; eassumption | auto].
  - intro K. inversion K. subst. inversion F. congruence.
Qed.

Lemma attr_value_wf : forall v a, attr_value v a -> attr_wf a.
Proof.
  intros v a H. destruct a; cbn [attr_value attr_wf] in *; try contradiction; try exact I.
  - destruct H as (found & comp & trans & prio & addr & port & typ & ty & exts & ps & W & Ef & _ & _ & _ & Ra & _ & _ & _ &
      Pr & _ & _ & Fr & _ & _ & Fu & O).
    pose proof (words_all _ _ W) as N. inversion N as [|? ? N0 N']; subst.
    assert (Nx : Forall word exts) by (do 7 (inversion N' as [|? ? _ N'']; subst; clear N'; rename N'' into N'); exact N').
    pose proof (in_pairs_word _ _ _ (le_n _) Pr Nx) as P.
    split; [exact N0|]. split; [exact (reads_wf _ _ Ra)|]. split.
    { destruct (raddr a) as [r|]; [|exact I].
      destruct (option_field_last _ _ _ _ Fr) as (vs & w & _ & _ & R). exact (reads_wf _ _ R). }
    split.
    { destruct (ufrag a) as [r|]; [|exact I].
      destruct (option_field_last _ _ _ _ Fu) as (vs & w & G & J & ->).
      exact (Forall_in _ _ _ (given_word _ _ _ G P) J). }
    apply Forall_forall. intros nv Hn. pose proof (Forall_in _ _ _ P (others_sub _ _ _ O _ Hn)) as [P1 P2].
    split; [exact P1|]. split; [exact P2|]. exact (Forall_in _ _ _ (others_not _ _ _ O) Hn).
  - destruct H as (t & role & text & C & F & D). pose proof (fields_no _ _ _ F) as N.
    inversion N as [|? ? _ N']; subst. inversion N' as [|? ? N0 _]; subst.
    assert (G : ends_solid text).
    { apply fields_two_cut in F. destruct F as [-> _]. destruct (core_ends _ _ C) as [K|[_ K]].
      - destruct role; discriminate.
      - exact (ends_after _ 32 _ eq_refl K). }
    destruct D as [[_ ->]|[_ ->]]; auto.
  - destruct H as (id & url & more & W & <- & _ & M). pose proof (words_all _ _ W) as N.
    inversion N as [|? ? _ N']; subst. inversion N' as [|? ? Nu Nm]; subst. split; [exact Nu|].
    destruct more as [|m more]; [rewrite M; exact I|]. destruct M as [-> Z]. cbn [option_wf].
    exists (m :: more). split; [reflexivity|]. split; [discriminate|]. split; [exact Nm|].
    intro K. apply contains_In in K. revert K. apply Bool.not_true_iff_false.
    apply (class_not_contains (fun c => negb (c =? 0))); [|reflexivity].
    apply join_chars; [reflexivity|]. eapply Forall_impl; [|exact Z]. intros w Hw.
    apply forallb_forall. intros c Hc. apply Bool.negb_true_iff, N.eqb_neq. intros ->. exact (Hw Hc).
  - destruct H as (t & pt & block & C & Cu & _ & B).
    destruct B as [(_ & ts & F & L)|[(_ & In47 & ts & F & F2 & Eq)|(_ & _ & Eq & D)]].
    + left. destruct L as (ps & F2 & L). cbv zeta in L. do 21 (apply proj2 in L).
      destruct L as (_ & E1 & E2 & us & O & ->). split; [exact E1|]. split; [exact E2|].
      refine (pairs_tokens _ _ _ _ F2 _ O). apply Forall_forall. intros x Hx. apply filter_In in Hx.
      exact (Forall_in _ _ _ (fields_no _ _ _ F) (proj1 Hx)).
    + right. left. split; [|exact Eq]. apply F2_length in F2. rewrite <- F2.
      destruct F as [s N|t' s l N F']; [contradiction|]. destruct F'; cbn [List.length]; lia.
    + right. right. split; [|exact Eq]. destruct D as [[T ->]|[_ ->]]; [exact T|].
      exists [lit "0-15"]. split; [apply fields_last; intro K; cbn in K; repeat (destruct K as [K|K]; [discriminate|]); exact K|].
      constructor; [|constructor]. right. exists (lit "0"), (lit "15"), 0, 15.
      split; [split; [reflexivity | intros [K|[]]; discriminate]|]. split; [apply numeral_iff; reflexivity|].
      split; [apply numeral_iff; reflexivity | reflexivity].
  - destruct H as (sem & W & _). apply words_all in W. inversion W. assumption.
  - destruct H as [W N]. split; [exact N | exact (words_all _ _ W)].
  - destruct H as [C N]. destruct (core_ends _ _ C); [contradiction | assumption].
  - destruct H as [C N]. destruct (core_ends _ _ C); [contradiction | assumption].
  - destruct H as [C N]. destruct (core_ends _ _ C); [contradiction | assumption].
  - destruct H as (t & pt & d & first & more & dir & l1 & l2 & _ & _ & _ & _ & L1 & M & D).
    destruct (image_list_value_wf _ _ L1) as [W1 N1].
    assert (W2 : image_list_wf l2).
    { destruct more as [|d2 second]; [subst l2; constructor|]. destruct M as [_ L2]. exact (proj1 (image_list_value_wf _ _ L2)). }
    unfold image_wf. destruct dir; destruct D as [-> ->]; (split; [assumption|]; split; [assumption|]; intros [? ?]; contradiction).
  - destruct H as [C N]. destruct (core_ends _ _ C); [contradiction | assumption].
  - destruct H as [C N]. destruct (core_ends _ _ C); [contradiction | assumption].
  - destruct H as (more & W & ->). apply words_all in W. inversion W as [|? ? W0 W1]; subst.
    split; [exact W0|]. destruct more; [exact I|]. inversion W1; subst. assumption.
  - apply words_all in H. inversion H; subst. split; assumption.
  - destruct H as (t & dir & more & C & P & _ & M).
    assert (S : starts_solid t /\ ends_solid t).
    { destruct (core_ends _ _ C) as [->|K]; [|exact K]. cbn [space_parts] in P.
      destruct P as [[_ P]|(x & y & r & [Q _] & _)]; [discriminate | destruct x; discriminate]. }
    cbn [space_parts] in P. destruct P as [[_ P]|(x & y & r & [Q Nx] & Er & P)]; [discriminate|].
    inversion Er; subst x r. split; [exact Nx|]. split.
    { rewrite Q in S. exact (starts_before _ 32 _ eq_refl (proj1 S)). }
    destruct more as [|params more].
    + destruct M as [_ R]. exact (rid_params_wf _ _ _ R (Forall_nil _)).
    + destruct M as (ps & F & D). pose proof (fields_no _ _ _ F) as N.
      destruct D as [(pts & fs & rest & -> & _ & _ & R)|(_ & _ & R)].
      * inversion N; subst. eapply rid_params_wf; eassumption.
      * exact (rid_params_wf _ _ _ R N).
  - destruct H as (comp & addr & port & more & _ & _ & R & _). exact (reads_wf _ _ R).
  - destruct H as (pt & codec & more & freq & rest & W & _ & F & _). apply words_all in W.
    inversion W as [|? ? _ W1]; subst. inversion W1 as [|? ? W2 _]; subst.
    pose proof (fields_no_blank _ _ _ F (word_no_blank _ W2)) as N. pose proof (fields_no _ _ _ F) as M.
    inversion N; inversion M; subst. split; assumption.
  - destruct H as (port & more & _ & _ & M). destruct more as [|net [|ty [|addr more]]]; try contradiction.
    + rewrite M. exact I.
    + destruct M as (_ & t & x & _ & R & ->). exact (reads_typed_wf _ _ _ R).
  - destruct H as (t & pt & ty & more & C & P & _ & _ & Ok & Ep & Ee). rewrite Ep, Ee.
    assert (S : ends_solid t).
    { destruct (core_ends _ _ C) as [->|K]; [|exact (proj2 K)]. cbn [space_parts] in P.
      destruct P as [[_ P]|(x & y & r & [Q _] & _)]; [discriminate | destruct x; discriminate]. }
    destruct more as [|p more].
    + split; [exact Ok | left; reflexivity].
    + assert (Np : p <> []).
      { intros ->. cbn [hd_error] in Ok. destruct (fb_feedback_type a); cbn [fb_parameter_ok] in Ok; try contradiction;
          try (repeat (destruct Ok as [Ok|Ok]; [discriminate|]); exact Ok).
        destruct Ok as (n & K). exact (numeral_nonempty _ _ K). }
      cbn [hd tl]. split; [destruct p; [congruence | exact Ok]|].
      destruct more as [|e more]; [left; reflexivity|]. right. split; [exact Np|]. cbn [hd].
      cbn [space_parts] in P. destruct P as [[_ P]|(x & y & r & [Q _] & Er & P)]; [discriminate|].
      inversion Er; subst x r. subst t. apply ends_after in S; [|reflexivity].
      destruct P as [[_ P]|(x & z & r & [Q _] & Er' & P)]; [discriminate|].
      inversion Er'; subst x r y. apply ends_after in S; [|reflexivity].
      destruct P as [[_ P]|(x & y & r & [Q _] & Er'' & P)]; [discriminate|].
      cbn [space_parts] in P. rewrite P in Er''. inversion Er''; subst x e z.
      apply ends_after in S; [|reflexivity]. exact S.
  - destruct H as (d & first & more & W & dir & l1 & l2 & _ & L1 & M & D). apply words_all in W.
    inversion W as [|? ? _ W1]; subst. inversion W1 as [|? ? W2 W3]; subst.
    destruct (simulcast_list_wf _ _ L1 W2) as [N1 Ne].
    assert (N2 : Forall (fun v => v <> [] /\ Forall simulcast_id_wf v) l2).
    { destruct more as [|d2 [|second more]]; [subst l2; constructor | contradiction|].
      destruct M as [_ L2]. inversion W3 as [|? ? _ W4]; subst. inversion W4; subst.
      eapply simulcast_list_wf; eassumption. }
    rewrite Forall_app.
    destruct dir; destruct D as [-> ->]; (split; [split; assumption|]); intro K; apply app_eq_nil in K; destruct K; contradiction.
  - destruct H as (t & C & S). unfold ssrc_wf.
    destruct S as [(_ & _ & -> & ->)|(id & rest & Cu & _ & D)]; [exact I|]. destruct Cu as [-> _].
    assert (G : ends_solid rest).
    { destruct (core_ends _ _ C) as [K|[_ K]]; [destruct id; discriminate|]. exact (ends_after _ 32 _ eq_refl K). }
    destruct D as [(N & -> & ->)|(x & y & [-> N] & -> & ->)]; [split; assumption|]. split; [exact N|].
    destruct y as [|c y]; [left; reflexivity | right]. apply (ends_tail x 58); [exact G | discriminate].
  - destruct H as (w & ids & _ & _ & _ & F). clear -F. induction F as [|u s' us l F0 F IH]; [constructor|].
    destruct F0 as (_ & E1 & E2). constructor; [split; assumption | exact IH].
Qed.

Lemma line_means_wf : forall line n l, parse_sdp_line line n = Ok l -> item_wf (l_type l).
Proof.
  intros line n l H. split; [exact (line_range X _ _ _ H)|]. apply line_fwd in H. destruct H as (_ & _ & M).
  destruct (l_type l) as [a|b|cn|m|o|s|t|ver]; try exact I; destruct M as (w1 & c & w2 & v & _ & _ & _ & _ & T);
    cbn [type_value] in T.
  - destruct T as (t & C & D). destruct D as [(_ & _ & [Fl|V])|(name & rest & Cu & _ & V)].
    + destruct a; try contradiction; exact I.
    + exact (attr_value_wf _ _ V).
    + exact (attr_value_wf _ _ V).
  - destruct T as (t & ty & num & k & C & F & _ & D). pose proof (fields_no _ _ _ F) as N.
    inversion N as [|? ? N0 _]; subst. destruct D as [[_ ->]|[[_ ->]|[[_ ->]|(A & B & G & ->)]]]; try exact I.
    split; [exact N0|]. split; [|split; [exact A | split; assumption]].
    apply fields_two_cut in F. destruct F as [-> _]. destruct (core_ends _ _ C) as [K|[K _]].
    + destruct ty; discriminate.
    + destruct ty as [|d ty]; [left; reflexivity | right]. destruct K as (e & x & K & W). inversion K; subst. exists e, ty. auto.
  - destruct T as (net & ty & rest & t & _ & _ & _ & addr & opts & _ & R & O). split; [exact (reads_typed_wf _ _ _ R)|].
    intro K. destruct opts as [|o1 [|o2 opts]]; [tauto | tauto|]. destruct O as [(k & K' & _) _]. congruence.
  - destruct T as (kind & port & proto & fmts & W & _ & _ & _ & _ & F). apply words_all in W.
    destruct (ml_media m); [destruct F as (l' & -> & _); exact I.. | rewrite F].
    do 3 (inversion W as [|? ? _ W']; subst; clear W; rename W' into W). exact W.
  - destruct T as (user & id & ver & net & ty & addr & more & t & W & <- & _ & _ & _ & _ & R). apply words_all in W.
    inversion W; subst. split; [assumption | exact (reads_typed_wf _ _ _ R)].
Qed.
End WithExt.

(** * Proofs: parsed sessions have no line feeds in their texts (C41) *)
From Coq Require Import List NArith ZArith Lia Bool Ascii String.
From Verif Require Import Str Num Net Types Ext Show Session SpecApi SpecDoc SpecVal SpecItems SpecPrint.
From Verif Require Import StrLemmas NumLemmas NetLemmas PDoc PDoc2 PVal PVal2 PVal8 PVal11 PPrint.
Import ListNotations.
Open Scope N_scope.
Open Scope list_scope.

Lemma nl_word : forall t, word t -> nl t.
Proof. intros t [_ H] K. apply (Forall_in _ _ _ H) in K. discriminate. Qed.
Lemma nl_words : forall v l, words v l -> Forall nl l.
Proof. intros v l H. apply Forall_forall. intros t Ht. exact (nl_word t (words_word _ _ _ H Ht)). Qed.
Lemma nl_core : forall v t, core v t -> nl v -> nl t.
Proof.
  intros v t (w1 & w2 & -> & _) H K. apply H, in_or_app. right. apply in_or_app. left. exact K.
Qed.
Lemma nl_fields : forall c v l, fields c v l -> nl v -> Forall nl l.
Proof.
  intros c v l F. induction F as [s N|t s l N F IH]; intro H; [repeat constructor; exact H|].
  constructor; [intro K; apply H, in_or_app; auto|]. apply IH. intro K. apply H, in_or_app. right. right. exact K.
Qed.
Lemma nl_cut : forall c v a b, cut c v a b -> nl v -> nl a /\ nl b.
Proof.
  intros c v a b [-> _] H. split; intro K; apply H, in_or_app; [left; exact K | right; right; exact K].
Qed.
Lemma nl_parts : forall n v l, space_parts n v l -> nl v -> Forall nl l.
Proof.
  induction n as [|n IH]; intros v l H Hv; [destruct H|]. cbn [space_parts] in H. destruct n as [|n].
  - subst l. repeat constructor. exact Hv.
  - destruct H as [[_ ->]|(a & b & r & C & -> & P)]; [repeat constructor; exact Hv|].
    destruct (nl_cut _ _ _ _ C Hv) as [Ha Hb]. constructor; [exact Ha | exact (IH b r P Hb)].
Qed.
Lemma nl_hd : forall l, Forall nl l -> nl (hd [] l).
Proof. intros l [|x l' H _]; [apply nl_nil | exact H]. Qed.
Lemma nl_tl : forall l, Forall nl l -> Forall nl (tl l).
Proof. intros l [|x l' _ H]; [constructor | exact H]. Qed.
Lemma nl_numeral : forall m t n, numeral m t n -> nl t.
Proof. intros m t n H K. destruct (numeral_chars _ _ _ H _ K) as [[D1 D2]|D]; [lia | discriminate]. Qed.
Lemma nl_in_pairs : forall n l ps, (List.length l <= n)%nat -> in_pairs l = Some ps -> Forall nl l ->
  Forall (fun nv => nl (fst nv) /\ nl (snd nv)) ps.
Proof.
  induction n as [|n IH]; intros l ps L H F.
  - destruct l; [|cbn in L; lia]. inversion H. constructor.
  - destruct l as [|a [|b l]]; try discriminate; [inversion H; constructor|].
    cbn [in_pairs] in H. destruct (in_pairs l) as [p|] eqn:P; [|discriminate].
    inversion H. inversion F as [|? ? Fa F']; subst. inversion F' as [|? ? Fb F'']; subst.
    constructor; [split; assumption|]. apply (IH l); [cbn in L; lia | exact P | exact F''].
Qed.
Lemma nl_given : forall is ps vs, given is ps vs -> Forall (fun nv => nl (fst nv) /\ nl (snd nv)) ps ->
  Forall nl vs.
Proof.
  intros is ps vs G. induction G; intro F; inversion F as [|? ? Fa F']; subst; auto.
  constructor; [exact (proj2 Fa) | auto].
Qed.
Lemma others_sub : forall known ps us, others known ps us -> forall x, In x us -> In x ps.
Proof. intros known ps us O. induction O; intros x Hx; [exact Hx | destruct Hx; [left; assumption | right; auto] | right; auto]. Qed.
Lemma last_of_In : forall {A} (l : list A) x, last_of l = Some x -> In x l.
Proof.
  intros A l x H. unfold last_of in H. apply in_rev. destruct (rev l); [discriminate|]. inversion H. left. reflexivity.
Qed.
Lemma option_field_last : forall {A} is ps (reads : str -> A -> Prop) x, option_field is ps reads (Some x) ->
  exists vs v, given is ps vs /\ In v vs /\ reads v x.
Proof.
  intros A is ps reads x (vs & G & _ & L). destruct (last_of vs) as [v|] eqn:K; [|discriminate].
  destruct L as (y & Ey & R). inversion Ey. subst. exists vs, v. split; [exact G|]. split; [apply last_of_In, K | exact R].
Qed.

Section WithExt.
Context {E : Ext}.
Context (X : ext_ok E).

Lemma nl_host : forall s d, host_parse s = Ok (HDomain d) -> nl d.
Proof. intros s d H. apply (nl_class domain_char); [apply (host_domain_chars E X _ _ H) | reflexivity]. Qed.
Lemma nl_reads : forall s a, reads_address s a -> Forall nl (address_texts a).
Proof.
  intros s a [(_ & i & _ & ->)|(_ & h & H & ->)]; [constructor|].
  destruct h; cbn [host_address address_texts]; constructor; [exact (nl_host _ _ H) | constructor].
Qed.
Lemma nl_reads_typed : forall t s a, reads_typed t s a -> Forall nl (typed_texts a).
Proof.
  intros t s a [(d & R & ->)|[(_ & n & _ & ->)|(_ & n & _ & ->)]]; try constructor; [|constructor].
  apply nl_reads in R. inversion R. assumption.
Qed.
Lemma tones_nl : forall t, tones t -> nl t.
Proof.
  intros t (ts & F & T) K. apply fields_split in F. subst ts.
  rewrite <- (join_split 44 t) in K. revert K. apply nl_join; [nl_lit|].
  eapply Forall_impl; [|exact T]. intros u [(n & N)|(a & b & x & y & [-> _] & Na & Nb & _)].
  - exact (nl_numeral _ _ _ N).
  - apply nl_app; [exact (nl_numeral _ _ _ Na)|]. apply nl_cons; [discriminate | exact (nl_numeral _ _ _ Nb)].
Qed.
Lemma nl_pairs_of : forall ts ps, Forall2 (fun t nv => cut 61 t (fst nv) (snd nv)) ts ps -> Forall nl ts ->
  Forall (fun nv => nl (fst nv) /\ nl (snd nv)) ps.
Proof.
  intros ts ps H. induction H; intro F; [constructor|]. inversion F as [|? ? Ft Fl]; subst.
  constructor; [exact (nl_cut _ _ _ _ H Ft) | auto].
Qed.
Lemma nl_unknown : forall known ps us, others known ps us ->
  Forall (fun nv => nl (fst nv) /\ nl (snd nv)) ps ->
  Forall nl (map (fun nv => fst nv ++ 61 :: snd nv) us).
Proof.
  intros known ps us O F. apply nl_map. intros x Hx. apply (others_sub _ _ _ O) in Hx.
  apply (Forall_in _ _ _ F) in Hx. destruct Hx. apply nl_app; [assumption|]. apply nl_cons; [discriminate | assumption].
Qed.
Lemma nl_rid_params : forall ts p dep, rid_params_value ts p dep -> Forall nl ts ->
  Forall nl (rid_unknown p ++ dep).
Proof.
  intros ts p dep (ps & F & _ & _ & _ & _ & _ & _ & (vs & ds & G & Fs & ->) & us & O & ->) H.
  pose proof (nl_pairs_of _ _ F H) as P. apply Forall_app. split; [exact (nl_unknown _ _ _ O P)|].
  pose proof (nl_given _ _ _ G P) as V. clear -Fs V. induction Fs; [constructor|]. inversion V; subst.
  cbn [List.concat]. apply Forall_app. split; [eapply nl_fields; eassumption | auto].
Qed.
Lemma nl_simulcast_list : forall t l, simulcast_list_value t l -> nl t ->
  Forall nl (flat_map (map sid_id) l).
Proof.
  intros t l (body & vs & B & F & V) H.
  assert (Hb : nl body). { destruct B as [C|[_ ->]]; [exact (proj2 (nl_cut _ _ _ _ C H)) | exact H]. }
  pose proof (nl_fields _ _ _ F Hb) as Hv. clear - V Hv. induction V as [|t x ts l V0 V IH]; [constructor|].
  inversion Hv as [|? ? Ht Hts]; subst. cbn [flat_map]. apply Forall_app. split; [|auto].
  destruct V0 as (alts & Fa & A). pose proof (nl_fields _ _ _ Fa Ht) as Ha. clear - A Ha.
  induction A as [|t i ts l A0 A IH]; [constructor|]. inversion Ha as [|? ? Ht Hts]; subst. cbn [map]. constructor; [|auto].
  unfold simulcast_id_value in A0. destruct (sid_paused i).
  - subst t. intro K. apply Ht. right. exact K.
  - destruct A0 as [<- _]. exact Ht.
Qed.

Lemma nl_attr_value : forall v a, attr_value v a -> nl v -> Forall nl (attr_texts a).
Proof.
  intros v a H Hv. destruct a; cbn [attr_value attr_texts] in *; try contradiction; try (constructor; fail).
  - destruct H as (found & comp & trans & prio & addr & port & typ & ty & exts & ps & W & Ef & _ & _ & _ & Ra & _ & _ & _ &
      Pr & _ & _ & Fr & _ & _ & Fu & O).
    pose proof (nl_words _ _ W) as N. inversion N as [|? ? N0 N']; subst.
    do 7 (apply nl_tl in N'; cbn [tl] in N').
    pose proof (nl_in_pairs _ _ _ (le_n _) Pr N') as P.
    constructor; [exact N0|]. apply Forall_app. split; [exact (nl_reads _ _ Ra)|].
    apply Forall_app. split.
    { destruct (raddr a) as [r|]; [|constructor]. cbn [of_option flat_map]. rewrite app_nil_r.
      destruct (option_field_last _ _ _ _ Fr) as (vs & w & _ & _ & R). exact (nl_reads _ _ R). }
    apply Forall_app. split.
    { destruct (ufrag a) as [r|]; [|constructor]. constructor; [|constructor].
      destruct (option_field_last _ _ _ _ Fu) as (vs & w & G & I & ->).
      exact (Forall_in _ _ _ (nl_given _ _ _ G P) I). }
    apply Forall_forall. intros t Ht. apply in_flat_map in Ht. destruct Ht as (nv & Hn & Ht).
    apply (others_sub _ _ _ O), (Forall_in _ _ _ P) in Hn. destruct Hn as [Hn1 Hn2].
    destruct Ht as [<-|[<-|[]]]; assumption.
  - destruct H as (t & role & text & C & F & D). apply (nl_core _ _ C) in Hv.
    pose proof (nl_fields _ _ _ F Hv) as N. inversion N as [|? ? _ N']; subst. inversion N'; subst.
    destruct D as [[_ ->]|[_ ->]]; constructor; auto.
  - destruct H as (id & url & more & W & <- & _ & M). pose proof (nl_words _ _ W) as N.
    inversion N as [|? ? _ N']; subst. inversion N' as [|? ? Nu Nm]; subst. constructor; [exact Nu|].
    destruct more as [|m more]; [rewrite M; constructor|]. destruct M as [-> _]. cbn [of_option].
    constructor; [|constructor]. apply nl_join; [nl_lit | exact Nm].
  - destruct H as (t & pt & block & C & Cu & _ & B). apply (nl_core _ _ C) in Hv.
    destruct (nl_cut _ _ _ _ Cu Hv) as [_ Hb].
    destruct B as [(_ & ts & F & L)|[(_ & _ & ts & _ & _ & ->)|(_ & _ & Eq & D)]].
    + destruct L as (ps & F2 & L). cbv zeta in L.
      do 21 (apply proj2 in L). destruct L as (_ & _ & -> & us & O & ->).
      constructor; [apply nl_nil|]. apply (nl_unknown _ _ _ O), (nl_pairs_of _ _ F2).
      apply nl_filter. exact (nl_fields _ _ _ F Hb).
    + repeat constructor. apply nl_nil.
    + rewrite Eq. cbn [dtmf_tones set_dtmf_tones unknown_tokens fmtp_defaults]. constructor; [|constructor].
      destruct D as [[T ->]|[_ ->]]; [exact Hb | nl_lit].
  - destruct H as (sem & W & _). apply nl_words in W. inversion W. assumption.
  - destruct H as [W _]. exact (nl_words _ _ W).
  - destruct H as [C _]. repeat constructor. exact (nl_core _ _ C Hv).
  - destruct H as [C _]. repeat constructor. exact (nl_core _ _ C Hv).
  - destruct H as [C _]. repeat constructor. exact (nl_core _ _ C Hv).
  - destruct H as [C _]. repeat constructor. exact (nl_core _ _ C Hv).
  - destruct H as [C _]. repeat constructor. exact (nl_core _ _ C Hv).
  - destruct H as (more & W & ->). apply nl_words in W. inversion W as [|? ? W0 W1]; subst.
    constructor; [exact W0|]. destruct more; [constructor|]. inversion W1; subst. repeat constructor; assumption.
  - apply nl_words in H. exact H.
  - destruct H as (t & dir & more & C & P & _ & M). apply (nl_core _ _ C) in Hv.
    pose proof (nl_parts _ _ _ P Hv) as N. inversion N as [|? ? N0 N']; subst. inversion N' as [|? ? _ N'']; subst.
    constructor; [exact N0|]. destruct more as [|params more].
    + destruct M as [_ R]. exact (nl_rid_params _ _ _ R (Forall_nil _)).
    + inversion N'' as [|? ? Np _]; subst. destruct M as (ps & F & D). pose proof (nl_fields _ _ _ F Np) as Hps.
      destruct D as [(pts & fs & rest & -> & _ & _ & R)|(_ & _ & R)].
      * inversion Hps; subst. eapply nl_rid_params; eassumption.
      * exact (nl_rid_params _ _ _ R Hps).
  - destruct H as (comp & addr & port & more & _ & _ & R & _). exact (nl_reads _ _ R).
  - destruct H as (pt & codec & more & freq & rest & W & _ & F & _). apply nl_words in W.
    inversion W as [|? ? _ W1]; subst. inversion W1 as [|? ? W2 _]; subst.
    pose proof (nl_fields _ _ _ F W2) as N. inversion N; subst. repeat constructor. assumption.
  - destruct H as (port & more & _ & _ & M). destruct more as [|net [|ty [|addr more]]]; try contradiction.
    + rewrite M. constructor.
    + destruct M as (_ & t & x & _ & R & ->). cbn [of_option flat_map]. rewrite app_nil_r. exact (nl_reads_typed _ _ _ R).
  - destruct H as (t & pt & ty & more & C & P & _ & _ & _ & -> & ->). apply (nl_core _ _ C) in Hv.
    pose proof (nl_parts _ _ _ P Hv) as N. do 2 (apply nl_tl in N; cbn [tl] in N).
    constructor; [exact (nl_hd _ N)|]. constructor; [exact (nl_hd _ (nl_tl _ N)) | constructor].
  - destruct H as (d & first & more & W & dir & l1 & l2 & _ & L1 & M & D). apply nl_words in W.
    inversion W as [|? ? _ W1]; subst. inversion W1 as [|? ? W2 W3]; subst.
    pose proof (nl_simulcast_list _ _ L1 W2) as N1.
    assert (N2 : Forall nl (flat_map (map sid_id) l2)).
    { destruct more as [|d2 [|second more]]; [subst l2; constructor | contradiction|].
      destruct M as [_ L2]. inversion W3 as [|? ? _ W4]; subst. inversion W4; subst.
      eapply nl_simulcast_list; eassumption. }
    rewrite flat_map_app. apply Forall_app. destruct dir; destruct D as [-> ->]; split; assumption.
  - destruct H as (t & C & S). apply (nl_core _ _ C) in Hv. unfold ssrc_texts.
    destruct S as [(_ & _ & -> & ->)|(id & rest & Cu & _ & D)]; [constructor|].
    destruct (nl_cut _ _ _ _ Cu Hv) as [_ Hr]. destruct D as [(_ & -> & ->)|(x & y & Cy & -> & ->)].
    + repeat constructor. exact Hr.
    + destruct (nl_cut _ _ _ _ Cy Hr). repeat constructor; assumption.
  - destruct H as (w & ids & _ & _ & _ & F). apply Forall_forall. intros t Ht. apply in_flat_map in Ht.
    destruct Ht as (s & Hs & Ht). exfalso. clear - F Hs Ht. induction F as [|u s' us l F0 F IH]; [destruct Hs|].
    destruct Hs as [->|Hs]; [|auto]. destruct F0 as (_ & E1 & E2). unfold ssrc_texts in Ht. rewrite E1, E2 in Ht. exact Ht.
Qed.

Lemma nl_line_means : forall line ty, line_means line ty -> ~ In 10 line -> no_line_feed ty.
Proof.
  intros line ty (w1 & c & w2 & v & -> & _ & _ & _ & T) H.
  assert (Hv : nl v).
  { intro K. apply H. apply in_or_app. right. apply in_or_app. right. apply in_or_app. right. right. exact K. }
  unfold no_line_feed. fold nl. destruct ty as [a|b|cn|m|o|s|t|n]; cbn [type_value item_texts] in *; try (constructor; fail).
  - destruct T as (t & C & D). apply (nl_core _ _ C) in Hv.
    destruct D as [(_ & _ & [Fl|V])|(name & rest & Cu & _ & V)].
    + destruct a; try contradiction; constructor.
    + exact (nl_attr_value _ _ V nl_nil).
    + exact (nl_attr_value _ _ V (proj2 (nl_cut _ _ _ _ Cu Hv))).
  - destruct T as (t & ty & num & n & C & F & _ & D). apply (nl_core _ _ C) in Hv.
    pose proof (nl_fields _ _ _ F Hv) as N. inversion N; subst.
    destruct D as [[_ ->]|[[_ ->]|[[_ ->]|(_ & _ & _ & ->)]]]; repeat constructor; assumption.
  - destruct T as (net & ty & rest & t & _ & _ & _ & addr & opts & _ & R & _). exact (nl_reads_typed _ _ _ R).
  - destruct T as (kind & port & proto & fmts & W & _ & _ & _ & _ & F). apply nl_words in W.
    do 3 (apply nl_tl in W; cbn [tl] in W).
    destruct (ml_media m); [destruct F as (l & -> & _); constructor.. | rewrite F; exact W].
  - destruct T as (user & id & ver & net & ty & addr & more & t & W & <- & _ & _ & _ & _ & R). apply nl_words in W.
    inversion W; subst. constructor; [assumption | exact (nl_reads_typed _ _ _ R)].
  - subst s. repeat constructor. exact Hv.
Qed.

Lemma parsed_clean : forall sdp b s, parse_sdp sdp b = Ok s -> session_clean s.
Proof.
  intros sdp b s H. split.
  - apply Forall_forall. intros ty Hty. destruct (item_means _ _ _ H _ Hty) as (line & I & M).
    apply (nl_line_means _ _ M). apply contains_not_In. exact (lines_no_lf _ _ I).
  - apply document in H. destruct H as (_ & ts & ws & R & _ & _ & _ & A & _).
    destruct A as (name & head & secs & Ets & N & _).
    destruct (s_session s) as [n|]; [|exact I]. destruct N as (w1 & w2 & -> & _).
    assert (In (TySession (w1 ++ n ++ w2)) ts) as J by (rewrite Ets; right; right; left; reflexivity).
    destruct (Reads_In _ _ _ _ R _ J) as (i & line & l & Ln & _ & P & T).
    apply line_fwd in P. destruct P as (_ & _ & M). rewrite T in M.
    apply nl_line_means in M.
    + inversion M as [|? ? K _]; subst. intro Q. apply K, in_or_app. right. apply in_or_app. left. exact Q.
    + apply contains_not_In. exact (lines_no_lf _ _ (nth_error_In _ _ Ln)).
Qed.
End WithExt.

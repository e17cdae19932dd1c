(** * fmtp blocks and rid against the grammars of SpecVal.v (proofs only) *)
From Coq Require Import List NArith ZArith Bool Ascii String Lia.
From Coq Require Import ZifyBool ZifyNat ZifyN.
From Verif Require Import Str Num Net Types Ext Show Address AttrParse Media Session.
From Verif Require Import StrLemmas NumLemmas NetLemmas.
From Verif Require Import SpecApi SpecDoc SpecVal PPanic PVal PVal2 PVal3 PVal4 PVal5.
Import ListNotations.
Open Scope N_scope.
Open Scope list_scope.

Section WithExt.
Context {E : Ext}.

Lemma param_cut : forall p p' tok, fmtp_parameter p tok = Ok p' -> exists n v, cut 61 tok n v.
Proof.
  intros p p' tok H. unfold fmtp_parameter in H.
  destruct (splitn 2 c_eq tok) as [|n [|v [|]]] eqn:W; try discriminate.
  exists n, v. apply cut_splitn2. exact W.
Qed.

Lemma fmtp_list_iff : forall toks p,
  foldM fmtp_parameter toks default_fmtp_params = Ok p <-> fmtp_list_value toks p.
Proof.
  intros toks p. rewrite fmtp_state_spec. revert p. induction toks as [|t toks IH] using rev_ind; intro p.
  - cbn [foldM]. split.
    + intro H. inv H. exists []. split; [constructor | apply fmtp_state_nil].
    + intros (ps & H & F). inv H. apply fmtp_state_nil_inv in F. subst. reflexivity.
  - rewrite foldM_app. cbn [foldM]. split.
    + intro H. okb H p' Hp'. okb H p'' Hp''. inv H. apply IH in Hp'.
      destruct Hp' as (ps & C & F). destruct (param_cut _ _ _ Hp'') as (n & v & Ct).
      exists (ps ++ [(n, v)]). split.
      * apply Forall2_app; [exact C | constructor; [exact Ct | constructor]].
      * eapply fmtp_step_fwd; eauto.
    + intros (ps & C & F). apply Forall2_app_inv_l in C.
      destruct C as (ps' & l & C & Ct & ->). inversion Ct as [|? [n v] ? ? Ct1 Ct2]; subst.
      inv Ct2. cbn [fst snd] in Ct1.
      destruct (fmtp_step_bwd _ _ _ _ _ Ct1 F) as (p' & F' & S).
      rewrite (proj2 (IH p')) by eauto. cbn [bind]. rewrite S. reflexivity.
Qed.

Lemma digits_iff : forall s n, validate_digits s = Some n <-> numeral 100 s n.
Proof.
  intros s n. unfold validate_digits, ok. split.
  - intro H. destruct (parse_u8 s) as [x| |] eqn:P; try discriminate.
    destruct (N.leb_spec x 100); [|discriminate]. inv H.
    apply (numeral_iff u8_max) in P. eapply numeral_weaken; eauto.
  - intro H. pose proof (numeral_le _ _ _ H) as L.
    assert (P : parse_u8 s = Ok n).
    { apply (numeral_iff u8_max). apply (numeral_weaken u8_max _ _ _ H). unfold u8_max. lia. }
    rewrite P. destruct (N.leb_spec n 100); [reflexivity | lia].
Qed.

Lemma tone_iff : forall t, dtmf_tone_ok t = true <-> tone t.
Proof.
  intro t. unfold dtmf_tone_ok, tone.
  destruct (splitn2_cases c_minus t) as [[N W] | (a & b & -> & N & W)].
  - rewrite W. split.
    + intro H. destruct (validate_digits t) as [n|] eqn:V; [|discriminate].
      left. exists n. apply digits_iff, V.
    + intros [(n & H) | (a & b & x & y & C & _)].
      * apply digits_iff in H. rewrite H. reflexivity.
      * apply cut_In in C. apply contains_not_In in N. contradiction.
  - rewrite W. split.
    + intro H. destruct (validate_digits a) as [x|] eqn:Va; [|discriminate].
      destruct (validate_digits b) as [y|] eqn:Vb; [|discriminate].
      right. exists a, b, x, y. split; [split; [reflexivity | apply contains_not_In, N]|].
      split; [apply digits_iff, Va|]. split; [apply digits_iff, Vb|]. lia.
    + intros [(n & H) | (a' & b' & x & y & C & X & Y & L)].
      * exfalso.
        assert (I : In 45 (a ++ c_minus :: b)) by (apply in_or_app; right; now left).
        destruct (numeral_chars _ _ _ H _ I) as [D | D]; [unfold is_digit in D; lia | lia].
      * assert (C2 : cut 45 (a ++ c_minus :: b) a b) by (split; [reflexivity | apply contains_not_In, N]).
        destruct (cut_fun _ _ _ _ _ _ C C2) as [-> ->].
        apply digits_iff in X, Y. rewrite X, Y. lia.
Qed.
Lemma tones_iff : forall t, forallb dtmf_tone_ok (split c_comma t) = true <-> tones t.
Proof.
  intro t. unfold tones. rewrite forallb_forall. split.
  - intro H. exists (split c_comma t). split; [apply fields_split; reflexivity|].
    apply Forall_forall. intros x I. apply tone_iff, H, I.
  - intros (ts & F & A) x I. apply fields_split in F. change 44 with c_comma in F. rewrite F in I.
    rewrite Forall_forall in A. apply tone_iff, A, I.
Qed.

Definition red_step (p : fmtp_params) (e : str) : res ierr fmtp_params :=
  x <- p_u8 e ;;
  x <- up_to 128 (gen "Red codec must be in range [0,128]") x ;;
  Ok (set_encodings (encodings p ++ [x]) p).
Lemma red_iff : forall ts p0 p, foldM red_step ts p0 = Ok p <->
  exists es, Forall2 (numeral 128) ts es /\ p = set_encodings (encodings p0 ++ es) p0.
Proof.
  induction ts as [|t ts IH]; intros p0 p; cbn [foldM].
  - split.
    + intro H. inv H. exists []. split; [constructor|]. rewrite app_nil_r. destruct p; reflexivity.
    + intros (es & F & ->). inv F. rewrite app_nil_r. destruct p0; reflexivity.
  - unfold red_step at 1. split.
    + intro H. okb H p1 H1. okb H1 x Hx. okb H1 y Hy. inv H1. apply up_to_iff in Hy.
      destruct Hy as [-> L]. apply p_u8_iff in Hx. apply IH in H. destruct H as (es & F & ->).
      exists (x :: es). split; [constructor; [eapply numeral_weaken; eauto | exact F]|].
      cbn. rewrite <- app_assoc. reflexivity.
    + intros (es & F & ->). inversion F as [|? x ? es' Hx Hes]; subst.
      pose proof (numeral_le _ _ _ Hx) as L.
      assert (P : p_u8 t = Ok x).
      { apply p_u8_iff. apply (numeral_weaken u8_max _ _ _ Hx). unfold u8_max. lia. }
      rewrite P. cbn [bind]. rewrite (proj2 (up_to_iff _ _ _ x)) by auto. cbn [bind].
      apply IH. exists es'. split; [exact Hes|]. cbn. rewrite <- app_assoc. reflexivity.
Qed.

Lemma defaults_eq : default_fmtp_params = fmtp_defaults.
Proof. reflexivity. Qed.

Lemma non_empty_filter : forall l : list str,
  filter non_empty l = filter (fun x => match x with [] => false | _ => true end) l.
Proof. intro l. apply filter_ext. intros []; reflexivity. Qed.

Lemma fmtp_block_iff : forall t p,
  fmtp_block default_fmtp_params t = Ok p <-> fmtp_block_value t p.
Proof.
  intros t p. unfold fmtp_block, fmtp_block_value. change c_eq with 61. change c_slash with 47.
  destruct (contains 61 t) eqn:C1; [apply contains_In in C1 | apply contains_not_In in C1].
  - rewrite fmtp_list_iff, non_empty_filter. split.
    + intro H. left. split; [exact C1|]. exists (split c_semi t).
      split; [apply fields_split; reflexivity | exact H].
    + intros [(_ & ts & F & H) | [(X & _) | (X & _)]]; try contradiction.
      apply fields_split in F. change (split c_semi t = ts) in F. rewrite F. exact H.
  - destruct (contains 47 t) eqn:C2; [apply contains_In in C2 | apply contains_not_In in C2].
    + change (foldM red_step (split 47 t) default_fmtp_params = Ok p <->
       (In 61 t /\ (exists ts, fields 59 t ts /\ fmtp_list_value (filter (fun x => match x with [] => false | _ => true end) ts) p)) \/
       (~ In 61 t /\ In 47 t /\ exists ts, fields 47 t ts /\ Forall2 (numeral 128) ts (encodings p) /\
          p = set_encodings (encodings p) fmtp_defaults) \/
       (~ In 61 t /\ ~ In 47 t /\ p = set_dtmf_tones (dtmf_tones p) fmtp_defaults /\
          ((tones t /\ dtmf_tones p = t) \/ (~ tones t /\ dtmf_tones p = lit "0-15")))).
      rewrite red_iff. split.
      * intros (es & F & ->). right. left. split; [exact C1|]. split; [exact C2|].
        exists (split 47 t). split; [apply fields_split; reflexivity|]. cbn. auto.
      * intros [(X & _) | [(_ & _ & ts & F & F2 & Ep) | (_ & X & _)]]; try contradiction.
        apply fields_split in F. rewrite F. exists (encodings p). split; [exact F2 | exact Ep].
    + destruct (forallb dtmf_tone_ok (split c_comma t)) eqn:T.
      * apply tones_iff in T. split.
        -- intro H. inv H. right. right. repeat split; auto.
        -- intros [(X & _) | [(_ & X & _) | (_ & _ & Ep & [(T' & D) | (T' & _)])]]; try contradiction.
           rewrite D in Ep. rewrite Ep. reflexivity.
      * assert (T' : ~ tones t) by (intro X; apply tones_iff in X; congruence). split.
        -- intro H. inv H. right. right. repeat split; auto.
        -- intros [(X & _) | [(_ & X & _) | (_ & _ & Ep & [(X & _) | (_ & D)])]]; try contradiction.
           rewrite D in Ep. rewrite Ep. reflexivity.
Qed.

Lemma fmtp_iff : forall v a,
  parse_fmtp (trim v) = Ok a <-> exists x, a = AFmtp x /\ fmtp_value v x.
Proof.
  intros v a. unfold parse_fmtp, fmtp_value. split.
  - intro H. destruct (splitn2_cases c_space (trim v)) as [[N W] | (x & y & Es & N & W)].
    + rewrite W in H. discriminate.
    + rewrite W in H. cbn in H. okb H p Hp. okb Hp p' Hp'. inv Hp. okb H n Hn. inv H.
      eexists. split; [reflexivity|]. exists (trim v), x, y.
      split; [apply core_trim_self|]. split; [split; [exact Es | apply contains_not_In, N]|].
      cbn. split; [apply p_u8_iff, Hn | apply fmtp_block_iff, Hp'].
  - intros (f & -> & t & x & y & C & Ct & P & B). apply core_trim in C. subst t.
    apply cut_splitn2 in Ct. change 32 with c_space in Ct. rewrite Ct. cbn.
    apply fmtp_block_iff in B. rewrite B. cbn. apply p_u8_iff in P. rewrite P. destruct f; reflexivity.
Qed.

(** ** rid *)
Definition rid_state (ps : list (str * str)) (p : rid_params) (depends : list str) : Prop :=
  let num name := field_of (fun n => is_word n name) ps (numeral u32_max) 0 in
  num "max-width"%string (max_width p) /\ num "max-height"%string (max_height p) /\
  num "max-fps"%string (max_fps p) /\ num "max-fs"%string (rid_max_fs p) /\
  num "max-br"%string (rid_max_br p) /\ num "max-pps"%string (max_pps p) /\
  (exists vs ds, given (fun n => is_word n "depends") ps vs /\ Forall2 (fields 44) vs ds /\
                 depends = List.concat ds) /\
  exists us, others (fun n => Exists (is_word n) rid_names) ps us /\
             rid_unknown p = map (fun nv => fst nv ++ 61 :: snd nv) us.

Ltac is_not Hn := unfold is_word; rewrite Hn; discriminate.
Ltac is_here Hn := exact Hn.
Ltac rid_known Hn :=
  unfold rid_names; repeat first [ apply Exists_cons_hd; exact Hn | apply Exists_cons_tl ].

Lemma given_nil : forall (is : str -> Prop) vs, given is [] vs -> vs = [].
Proof. intros is vs H. inv H. reflexivity. Qed.

Lemma rid_list_iff : forall toks p d,
  foldM rid_parameter toks (default_rid_params, []) = Ok (p, d) <-> rid_params_value toks p d.
Proof.
  intros toks p d.
  change (rid_params_value toks p d) with
    (exists ps, Forall2 (fun t nv => cut 61 t (fst nv) (snd nv)) toks ps /\ rid_state ps p d).
  revert p d. induction toks as [|t toks IH] using rev_ind; intros p d.
  - cbn [foldM]. unfold rid_state. split.
    + intro H. inv H. exists []. rewrite !field_nil. split; [constructor|].
      do 6 (split; [reflexivity|]). split.
      * exists [], []. repeat split; constructor.
      * exists []. split; [constructor | reflexivity].
    + intros (ps & H & F). inv H. rewrite !field_nil in F.
      destruct F as (? & ? & ? & ? & ? & ? & (vs & ds & G & D & Ed) & us & O & U).
      apply given_nil in G. apply others_nil_iff in O. subst. inv D.
      destruct p; cbn in *; subst. reflexivity.
  - rewrite foldM_app. cbn [foldM].
    transitivity (exists ps n v p' d', Forall2 (fun t nv => cut 61 t (fst nv) (snd nv)) toks ps /\
      cut 61 t n v /\ rid_state ps p' d' /\ rid_parameter (p', d') t = Ok (p, d)).
    { split.
      - intro H. okb H pd Hpd. destruct pd as [p' d']. apply IH in Hpd.
        destruct Hpd as (ps & C & F). okb H pd' Hpd'. inv H.
        assert (Ct : exists n v, cut 61 t n v).
        { unfold rid_parameter in Hpd'.
          destruct (splitn 2 c_eq t) as [|n [|v [|]]] eqn:W; try discriminate.
          exists n, v. apply cut_splitn2. exact W. }
        destruct Ct as (n & v & Ct). exists ps, n, v, p', d'. auto.
      - intros (ps & n & v & p' & d' & C & Ct & F & S).
        rewrite (proj2 (IH p' d')) by eauto. cbn [bind]. rewrite S. reflexivity. }
    transitivity (exists ps n v, Forall2 (fun t nv => cut 61 t (fst nv) (snd nv)) toks ps /\
      cut 61 t n v /\ rid_state (ps ++ [(n, v)]) p d).
    2: { split.
      - intros (ps & n & v & C & Ct & F). exists (ps ++ [(n, v)]). split; [|exact F].
        apply Forall2_app; [exact C | constructor; [exact Ct | constructor]].
      - intros (ps & C & F). apply Forall2_app_inv_l in C.
        destruct C as (ps' & l & C & Ct & ->). inversion Ct as [|? [n v] ? ? Ct1 Ct2]; subst.
        inv Ct2. exists ps', n, v. auto. }
    enough (G : forall ps n v, cut 61 t n v ->
      ((exists p' d', rid_state ps p' d' /\ rid_parameter (p', d') t = Ok (p, d)) <->
       rid_state (ps ++ [(n, v)]) p d)).
    { split.
      - intros (ps & n & v & p' & d' & C & Ct & F & S). exists ps, n, v.
        split; [exact C|]. split; [exact Ct|]. apply (G ps n v Ct). eauto.
      - intros (ps & n & v & C & Ct & F). apply (G ps n v Ct) in F. destruct F as (p' & d' & F & S).
        exists ps, n, v, p', d'. auto. }
    intros ps n v Ct. unfold rid_parameter. pose proof Ct as C0.
    apply cut_splitn2 in Ct. change 61 with c_eq in Ct. rewrite Ct.
    unfold rid_state.
    Ltac rid_num Hn setter fld p d :=
      split;
      [ let p' := fresh "p'" in let d' := fresh "d'" in let F := fresh "F" in let H := fresh "H" in
        intros (p' & d' & F & H); oka H; injection H as ? ?; subst p d; match goal with X : p_u32 _ = Ok _ |- _ => apply p_u32_iff in X end;
        destruct F as (F1 & F2 & F3 & F4 & F5 & F6 & (vs & ds & G & D & Ed) & us & O & U);
        do 6 (split; [first
          [ simple refine (proj2 (field_snoc_not _ _ _ _ _ _ _ _) _); [is_not Hn | assumption]
          | simple refine (proj2 (field_snoc_is _ _ _ _ _ _ _ _) _);
            [is_here Hn | split; [eexists; eassumption | eassumption]] ]|]);
        split;
        [ eexists; eexists; split; [simple refine (proj2 (given_snoc_not _ _ _ _ _ _) _); [is_not Hn | eassumption] | split; eassumption]
        | eexists; split; [apply others_snoc_known; [rid_known Hn | eassumption] | assumption] ]
      | let F := fresh "F" in intro F;
        destruct F as (F1 & F2 & F3 & F4 & F5 & F6 & (vs & ds & G & D & Ed) & us & O & U);
        repeat match goal with
        | X : field_of _ (_ ++ [_]) _ _ _ |- _ =>
            first [ apply field_snoc_not in X; [|is_not Hn] | apply field_snoc_is in X; [|is_here Hn] ]
        end;
        match goal with X : given _ (_ ++ [_]) _ |- _ => apply given_snoc_not in X; [|is_not Hn] end;
        match goal with X : others _ (_ ++ [_]) _ |- _ => apply others_snoc_known in X; [|rid_known Hn] end;
        match goal with X : (exists y, _) /\ numeral _ _ _ |- _ => destruct X as [[y X] Q] end;
        match goal with X : field_of _ _ _ _ ?y, Q : numeral _ _ (fld p) |- _ =>
          exists (setter y p), d;
          split;
          [ do 6 (split; [assumption|]); split;
            [do 2 eexists; split; [eassumption | split; eassumption] | eexists; split; eassumption]
          | apply p_u32_iff in Q; rewrite Q; cbn [bind]; destruct p; reflexivity ]
        end ].
    destruct (str_eqb_spec n (lit "max-width")) as [Hn|N1]; [rid_num Hn set_max_width max_width p d|].
    destruct (str_eqb_spec n (lit "max-height")) as [Hn|N2]; [rid_num Hn set_max_height max_height p d|].
    destruct (str_eqb_spec n (lit "max-fps")) as [Hn|N3]; [rid_num Hn set_max_fps max_fps p d|].
    destruct (str_eqb_spec n (lit "max-fs")) as [Hn|N4]; [rid_num Hn set_rid_max_fs rid_max_fs p d|].
    destruct (str_eqb_spec n (lit "max-br")) as [Hn|N5]; [rid_num Hn set_rid_max_br rid_max_br p d|].
    destruct (str_eqb_spec n (lit "max-pps")) as [Hn|N6]; [rid_num Hn set_max_pps max_pps p d|].
    destruct (str_eqb_spec n (lit "depends")) as [Hn|N7].
    { split.
      - intros (p' & d' & F & H). inv H.
        destruct F as (F1 & F2 & F3 & F4 & F5 & F6 & (vs & ds & G & D & Ed) & us & O & U).
        do 6 (split; [simple refine (proj2 (field_snoc_not _ _ _ _ _ _ _ _) _); [discriminate | assumption]|]).
        split.
        + exists (vs ++ [v]), (ds ++ [split c_comma v]). split.
          * apply given_snoc_is; [reflexivity | eauto].
          * split; [apply Forall2_app; [exact D | constructor; [apply fields_split; reflexivity | constructor]]|].
            rewrite concat_app. cbn. rewrite app_nil_r, Ed. reflexivity.
        + exists us. split; [apply others_snoc_known; [rid_known (@eq_refl str (lit "depends")) | assumption] | assumption].
      - intro F.
        destruct F as (F1 & F2 & F3 & F4 & F5 & F6 & (vs & ds & G & D & Ed) & us & O & U).
        repeat match goal with
        | X : field_of _ (_ ++ [_]) _ _ _ |- _ => apply field_snoc_not in X; [|is_not Hn]
        end.
        apply others_snoc_known in O; [|rid_known Hn].
        apply given_snoc_is in G; [|exact Hn]. destruct G as (vs' & G & ->).
        apply Forall2_app_inv_l in D. destruct D as (ds' & l & D & Dl & ->).
        inversion Dl as [|? dl ? ? Dl1 Dl2]; subst. inv Dl2.
        exists p, (List.concat ds'). split.
        + do 6 (split; [assumption|]). split; [exists vs', ds'; auto | exists us; auto].
        + apply fields_split in Dl1. change (split c_comma v = dl) in Dl1. rewrite Dl1.
          rewrite concat_app. cbn. rewrite app_nil_r. reflexivity. }
    assert (K : ~ Exists (is_word n) rid_names).
    { intro X. apply Exists_exists in X. destruct X as (k & I & M). unfold is_word in M.
      unfold rid_names in I. cbn [In] in I.
      repeat (destruct I as [I|I]; [subst k; contradiction|]). contradiction. }
    split.
    + intros (p' & d' & F & H). inv H.
      destruct F as (F1 & F2 & F3 & F4 & F5 & F6 & (vs & ds & G & D & Ed) & us & O & U).
      do 6 (split; [simple refine (proj2 (field_snoc_not _ _ _ _ _ _ _ _) _); [assumption | assumption]|]).
      split; [exists vs, ds; split; [apply given_snoc_not; [assumption | exact G] | auto]|].
      exists (us ++ [(n, v)]). split; [apply others_snoc_unknown; [exact K | eauto]|].
      cbn. rewrite map_app, U. destruct C0 as [-> _]. reflexivity.
    + intro F.
      destruct F as (F1 & F2 & F3 & F4 & F5 & F6 & (vs & ds & G & D & Ed) & us & O & U).
      repeat match goal with
      | X : field_of _ (_ ++ [_]) _ _ _ |- _ => apply field_snoc_not in X; [|assumption]
      end.
      apply given_snoc_not in G; [|assumption].
      apply others_snoc_unknown in O; [|exact K]. destruct O as (us' & O & ->).
      rewrite map_app in U. cbn [map fst snd] in U.
      exists (set_rid_unknown (map (fun nv => fst nv ++ 61 :: snd nv) us') p), d. split.
      * do 6 (split; [assumption|]). split; [exists vs, ds; auto | exists us'; auto].
      * destruct C0 as [-> _]. destruct p; cbn in U; subst; reflexivity.
Qed.

Lemma strip_pt : forall x, strip_prefix (lit "pt=") (lit "pt=" ++ x) = Some x.
Proof. intro x. cbn. reflexivity. Qed.

Lemma pt_formats_iff : forall l fs, mapM (fun f => p_u16 (trim f)) l = Ok fs <->
  Forall2 (fun f n => exists x, core f x /\ numeral u16_max x n) l fs.
Proof.
  intros l fs. rewrite mapM_ok. split; intro H; induction H; constructor; auto.
  - exists (trim x). split; [apply core_trim_self | apply p_u16_iff; assumption].
  - match goal with X : exists _, _ |- _ => destruct X as (z & C & Q) end.
    apply core_trim in C. subst. apply p_u16_iff, Q.
Qed.

Lemma rid_iff : forall v a,
  parse_rid (trim v) = Ok a <-> exists x, a = ARid x /\ rid_value v x.
Proof.
  intros v a. unfold parse_rid, rid_value. split.
  - intro H. destruct (splitn 3 c_space (trim v)) as [|t0 [|t1 more]] eqn:W; try discriminate.
    cbn [List.length Nat.ltb Nat.leb] in H. okb H z Hz. destruct z as [[fs ps] ds]. cbn [idx nth_error bind] in H.
    okb H dir Hdir. inv H. apply single_direction_iff in Hdir.
    eexists. split; [reflexivity|]. exists (trim v), t1, more.
    split; [apply core_trim_self|]. split; [apply parts_splitn; split; [discriminate | exact W]|].
    cbn [rid_direction rid_formats rid_params_of rid_depends rid_id].
    split; [exact Hdir|]. destruct more as [|m more].
    + cbn [nth_error] in Hz. inv Hz. split; [reflexivity|]. apply rid_list_iff. reflexivity.
    + cbn [nth_error] in Hz. exists (split c_semi m). split; [apply fields_split; reflexivity|].
      okb Hz z Hz'. destruct z as [fs' params]. okb Hz z Hz''. destruct z as [ps' ds']. inv Hz.
      destruct (split c_semi m) as [|first rest] eqn:Ws.
      { exfalso. exact (split_nonempty _ _ Ws). }
      destruct (strip_prefix (lit "pt=") first) as [pts|] eqn:P.
      * okb Hz' fs' Hfs'. inv Hz'. left. apply strip_prefix_some in P. subst first.
        exists pts, (split c_comma pts), params. split; [reflexivity|].
        split; [apply fields_split; reflexivity|]. split; [apply pt_formats_iff, Hfs'|].
        apply rid_list_iff, Hz''.
      * inv Hz'. right. split; [|split; [reflexivity | apply rid_list_iff, Hz'']].
        intros x r Eq. injection Eq as Eq1 Eq2. rewrite Eq1 in P. cbn in P. discriminate.
  - intros (r & -> & t & dir & more & C & Sp & Hdir & M). apply core_trim in C. subst t.
    apply parts_splitn in Sp. destruct Sp as [_ Sp]. change 32 with c_space in Sp. rewrite Sp.
    cbn [List.length Nat.ltb Nat.leb]. apply single_direction_iff in Hdir.
    destruct more as [|m more].
    + destruct M as [Hf R]. apply rid_list_iff in R. cbn in R. inv R.
      cbn [nth_error idx bind]. rewrite Hdir. cbn [bind]. destruct r; cbn in *; subst; reflexivity.
    + destruct M as (ps & F & [(pts & fs & rest & -> & Ff & A & R) | (Np & Hf & R)]).
      * apply fields_split in F. change (split c_semi m = (lit "pt=" ++ pts) :: rest) in F.
        cbn [nth_error]. rewrite F. rewrite strip_pt.
        apply fields_split in Ff. change (split c_comma pts = fs) in Ff. rewrite Ff.
        apply pt_formats_iff in A. rewrite A. cbn [bind].
        apply rid_list_iff in R. rewrite R. cbn [bind]. cbn [idx nth_error bind]. rewrite Hdir. cbn [bind].
        destruct r; reflexivity.
      * apply fields_split in F. change (split c_semi m = ps) in F. cbn [nth_error]. rewrite F.
        assert (Q : (match ps with
            | first :: rest =>
                match strip_prefix (lit "pt=") first with
                | Some fmt_list =>
                    fs <- mapM (fun f => p_u16 (trim f)) (split c_comma fmt_list) ;; Ok (fs, rest)
                | None => Ok ([], ps)
                end
            | [] => Ok ([], [])
            end : res ierr (list N * list str)) = Ok ([], ps)).
        { destruct ps as [|first rest]; [reflexivity|].
          destruct (strip_prefix (lit "pt=") first) as [x|] eqn:P; [|reflexivity].
          apply strip_prefix_some in P. subst. exfalso. exact (Np x rest eq_refl). }
        rewrite Q. cbn [bind].
        apply rid_list_iff in R. rewrite R. cbn [bind]. cbn [idx nth_error bind]. rewrite Hdir. cbn [bind].
        destruct r; cbn in *; subst; reflexivity.
Qed.

End WithExt.

(** * Brackets, fmtp parameters, addresses (proofs for C19, C21, C34, C35) *)
From Coq Require Import List NArith ZArith Bool Ascii String Lia.
From Coq Require Import ZifyBool ZifyNat ZifyN.
From Verif Require Import Str Num Net Types Ext Show Address AttrParse Media Session.
From Verif Require Import StrLemmas NumLemmas NetLemmas.
From Verif Require Import SpecApi SpecDoc SpecVal SpecItems PPanic.
From Verif Require Import PVal PVal2 PVal3 PVal4 PVal5 PVal6 PVal7 PVal8 PVal9.
Import ListNotations.
Open Scope N_scope.
Open Scope list_scope.

(** ** Brackets *)
Lemma join_app : forall sep a b, a <> [] -> b <> [] -> join sep (a ++ b) = join sep a ++ sep ++ join sep b.
Proof.
  intros sep. induction a as [|x a IH]; intros b Na Nb; [congruence|].
  destruct a as [|y a].
  - cbn [app]. rewrite join_cons by exact Nb. reflexivity.
  - change ((x :: y :: a) ++ b) with (x :: ((y :: a) ++ b)).
    rewrite join_cons by discriminate. rewrite IH by (discriminate || exact Nb).
    rewrite (join_cons sep x (y :: a)) by discriminate. rewrite !app_assoc. reflexivity.
Qed.
Lemma join_groups : forall sep gs l, Forall (fun g : list str => g <> []) gs ->
  join sep (map (join sep) gs ++ l) = join sep (List.concat gs ++ l).
Proof.
  intros sep gs l F. induction F as [|g gs N F IH]; [reflexivity|].
  cbn [map List.concat app]. rewrite <- app_assoc.
  destruct (map (join sep) gs ++ l) as [|y r] eqn:K.
  - apply app_eq_nil in K. destruct K as [K ->]. destruct gs; [|discriminate].
    cbn [List.concat app]. rewrite app_nil_r. reflexivity.
  - assert (Ne : List.concat gs ++ l <> []).
    { destruct gs as [|g2 gs]; cbn in *; [congruence|]. inversion F; subst.
      destruct g2; [congruence | discriminate]. }
    rewrite join_cons by discriminate. rewrite join_app by assumption. rewrite IH. reflexivity.
Qed.
Lemma join_fields : forall sep s l, fields sep s l -> s = join [sep] l.
Proof. intros sep s l H. apply fields_split in H. subst l. symmetry. apply join_split. Qed.
Lemma fields_sepfree : forall sep s l, fields sep s l -> Forall (fun t => ~ In sep t) l.
Proof. intros sep s l H. induction H; constructor; auto. Qed.
Lemma fields_join : forall sep l, l <> [] -> Forall (fun t => ~ In sep t) l -> fields sep (join [sep] l) l.
Proof.
  intros sep l N F. apply fields_split. apply split_join; [exact N|].
  eapply Forall_impl; [|exact F]. intros t H. apply contains_not_In, H.
Qed.
Lemma balance_nobr : forall l, Forall (fun t => ~ In 91 t /\ ~ In 93 t) l -> balance l = 0%Z.
Proof.
  intros l F. induction F as [|t l [H1 H2] F IH]; [reflexivity|]. cbn [balance fold_right].
  fold (balance l). rewrite IH. unfold weight. apply contains_not_In in H1, H2. rewrite H1, H2. reflexivity.
Qed.
Lemma tokens_facts : forall s sep toks, parse_imageattr_tokens s sep = Ok toks ->
  (exists left, s = join [sep] (toks ++ left) /\ Forall (fun t => ~ In sep t) left /\
     forall p q, left = p ++ q -> p <> [] -> balance p <> 0%Z) /\
  Forall (fun t => forall pieces, fields sep t pieces ->
     balance pieces = 0%Z /\
     forall p q, pieces = p ++ q -> p <> [] -> q <> [] -> balance p <> 0%Z) toks /\
  (~ In 91 s -> ~ In 93 s -> fields sep s toks).
Proof.
  intros s sep toks H. apply tokens_sound in H. destruct H as (gs & left & F & C & O & ->).
  assert (Ne : Forall (fun g : list str => g <> []) gs)
    by (eapply Forall_impl; [|exact C]; intros g Hg; apply closed_nonempty, Hg).
  pose proof (fields_sepfree _ _ _ F) as Sf. apply Forall_app in Sf. destruct Sf as [Sg Sl].
  split; [|split].
  - exists left. split; [rewrite join_groups by exact Ne; apply join_fields, F|]. split; [exact Sl|]. exact O.
  - apply Forall_forall. intros t It. apply in_map_iff in It. destruct It as (g & <- & Ig).
    rewrite Forall_forall in C, Ne. specialize (C _ Ig). specialize (Ne _ Ig).
    intros pieces Fp.
    assert (Fg : fields sep (join [sep] g) g).
    { apply fields_join; [exact Ne|]. apply Forall_forall. intros x Ix. rewrite Forall_forall in Sg.
      apply Sg. apply in_concat. eauto. }
    apply fields_split in Fp, Fg. rewrite Fg in Fp. subst pieces.
    destruct C as (i & t & -> & Oi & B). split; [exact B|].
    intros p q E Np Nq. destruct q as [|y q] using rev_ind; [congruence|].
    rewrite app_assoc in E. apply app_inj_tail in E. destruct E as [E _]. exact (Oi _ _ E Np).
  - intros N1 N2.
    assert (Nb : Forall (fun t => ~ In 91 t /\ ~ In 93 t) (List.concat gs ++ left)).
    { apply Forall_forall. intros t It. apply fields_split in F. rewrite <- F in It.
      split; intro K; [apply N1 | apply N2]; eapply split_chars; eassumption. }
    apply Forall_app in Nb. destruct Nb as [Ng Nl].
    assert (left = []).
    { destruct left as [|x l]; [reflexivity|]. exfalso. apply (O [x] l eq_refl); [discriminate|].
      apply balance_nobr. inversion Nl; subst. constructor; [assumption | constructor]. }
    subst left. rewrite app_nil_r in F.
    assert (Sing : Forall (fun g => exists t, g = [t]) gs).
    { apply Forall_forall. intros g Ig. rewrite Forall_forall in C. specialize (C _ Ig).
      destruct C as (i & t & -> & Oi & B). destruct i as [|x i]; [exists t; reflexivity|]. exfalso.
      apply (Oi [x] i eq_refl); [discriminate|]. apply balance_nobr. constructor; [|constructor].
      rewrite Forall_forall in Ng. apply Ng. apply in_concat. exists ((x :: i) ++ [t]). split; [exact Ig|]. now left. }
    assert (Eq : map (join [sep]) gs = List.concat gs).
    { clear - Sing. induction Sing as [|g gs (t & ->) S IH]; [reflexivity|].
      cbn [map List.concat app join]. f_equal. exact IH. }
    rewrite Eq. exact F.
Qed.

Lemma count_app : forall c a b, count c (a ++ b) = (count c a + count c b)%nat.
Proof. intros. apply count_occ_app. Qed.
Lemma count_contains : forall c s, (count c s <= 1)%nat -> Z.of_nat (count c s) = if contains c s then 1%Z else 0%Z.
Proof.
  intros c s H. destruct (contains c s) eqn:K.
  - apply contains_In in K. apply (count_occ_In N.eq_dec) in K. unfold count in *. lia.
  - apply contains_not_In in K. apply (count_occ_not_In N.eq_dec) in K. unfold count. lia.
Qed.
Lemma join_balance : forall sep g, sep <> 91 -> sep <> 93 ->
  Forall (fun t => count 91 t <= 1 /\ count 93 t <= 1)%nat g ->
  (Z.of_nat (count 91 (join [sep] g)) - Z.of_nat (count 93 (join [sep] g)) = balance g)%Z.
Proof.
  intros sep g N1 N2 F. induction F as [|t g [H1 H2] F IH]; [reflexivity|].
  cbn [balance fold_right]. fold (balance g).
  assert (W : weight t = (Z.of_nat (count 91 t) - Z.of_nat (count 93 t))%Z).
  { unfold weight. rewrite !count_contains by assumption. reflexivity. }
  destruct g as [|u g].
  - cbn [join]. rewrite W. cbn [balance fold_right]. lia.
  - rewrite join_cons by discriminate. rewrite !count_app.
    assert (Z1 : count 91 [sep] = 0%nat).
    { unfold count. cbn. destruct (N.eq_dec sep 91); [contradiction | reflexivity]. }
    assert (Z2 : count 93 [sep] = 0%nat).
    { unfold count. cbn. destruct (N.eq_dec sep 93); [contradiction | reflexivity]. }
    rewrite Z1, Z2, W. lia.
Qed.
Lemma tokens_char_balance : forall s sep toks, sep <> 91 -> sep <> 93 ->
  parse_imageattr_tokens s sep = Ok toks ->
  (forall t pieces, fields sep s pieces -> In t pieces -> count 91 t <= 1 /\ count 93 t <= 1)%nat ->
  Forall (fun t => count 91 t = count 93 t) toks.
Proof.
  intros s sep toks N1 N2 H P. apply tokens_sound in H. destruct H as (gs & left & F & C & O & ->).
  apply Forall_forall. intros t It. apply in_map_iff in It. destruct It as (g & <- & Ig).
  assert (Fg : Forall (fun t => count 91 t <= 1 /\ count 93 t <= 1)%nat g).
  { apply Forall_forall. intros x Ix. apply (P x _ F). apply in_or_app. left. apply in_concat. eauto. }
  pose proof (join_balance sep g N1 N2 Fg) as B.
  rewrite Forall_forall in C. destruct (C _ Ig) as (i & y & Eq & _ & Z). rewrite Z in B. lia.
Qed.
Lemma tokens_defined : forall s sep, (Z.of_nat (List.length s) < 2147483648)%Z ->
  exists toks, parse_imageattr_tokens s sep = Ok toks.
Proof.
  intros s sep L. destruct (parse_imageattr_tokens s sep) as [r|e|] eqn:P; [eauto|..]; exfalso.
  - exact (loop_no_err _ _ _ _ _ _ P).
  - exact (parse_tokens_np _ _ L P).
Qed.

Section WithExt.
Context {E : Ext}.

(** ** fmtp parameters *)
Lemma given_swap : forall (is : str -> Prop) l x y r vs, ~ (is (fst x) /\ is (fst y)) ->
  (forall n, is n \/ ~ is n) ->
  given is (l ++ x :: y :: r) vs -> given is (l ++ y :: x :: r) vs.
Proof.
  intros is l x y r. induction l as [|z l IH]; intros vs N D H; cbn [app] in *.
  - destruct x as [n1 v1], y as [n2 v2]. cbn [fst] in N.
    inversion H as [|n v ps vs' I G|n v ps vs' I G]; subst.
    + inversion G as [|n v ps vs2 I2 G2|n v ps vs2 I2 G2]; subst; [tauto|].
      apply given_other; [exact I2|]. apply given_here; assumption.
    + inversion G as [|n v ps vs2 I2 G2|n v ps vs2 I2 G2]; subst.
      * apply given_here; [exact I2|]. apply given_other; assumption.
      * apply given_other; [exact I2|]. apply given_other; assumption.
  - inversion H; subst; [apply given_here | apply given_other]; auto.
Qed.
Lemma field_swap : forall {A} (is : str -> Prop) l x y r (reads : str -> A -> Prop) none v,
  ~ (is (fst x) /\ is (fst y)) -> (forall n, is n \/ ~ is n) ->
  field_of is (l ++ x :: y :: r) reads none v -> field_of is (l ++ y :: x :: r) reads none v.
Proof. intros A is l x y r reads none v N D (vs & G & H). exists vs. split; [apply given_swap; assumption | exact H]. Qed.
Lemma others_swap : forall (known : str -> Prop) l x y r us, (known (fst x) \/ known (fst y)) ->
  others known (l ++ x :: y :: r) us -> others known (l ++ y :: x :: r) us.
Proof.
  intros known l x y r. induction l as [|z l IH]; intros us N H; cbn [app] in *.
  - destruct x as [n1 v1], y as [n2 v2]. cbn [fst] in N.
    inversion H as [|n v ps us' K G|n v ps us' K G]; subst;
      inversion G as [|n v ps us2 K2 G2|n v ps us2 K2 G2]; subst; try tauto.
    + apply others_drop; [exact K2|]. apply others_keep; assumption.
    + apply others_keep; [exact K2|]. apply others_drop; assumption.
    + apply others_drop; [exact K2|]. apply others_drop; assumption.
  - inversion H; subst; [apply others_keep | apply others_drop]; auto.
Qed.
Lemma upper_dec : forall name, upper_word (of_string name) = true ->
  forall n, means_upper n name \/ ~ means_upper n name.
Proof.
  intros name U n. destruct (str_eq_dec (to_upper n) (of_string name)) as [K|K].
  - left. apply means_upper_iff; assumption.
  - right. intro H. apply means_upper_iff in H; [|exact U]. contradiction.
Qed.
Definition rtx_name (n : str) : Prop := means_upper n "APT" \/ means_upper n "RTX-TIME".
Lemma rtx_dec : forall n, rtx_name n \/ ~ rtx_name n.
Proof.
  intro n. unfold rtx_name. destruct (upper_dec "APT" eq_refl n); [tauto|].
  destruct (upper_dec "RTX-TIME" eq_refl n); tauto.
Qed.
Lemma rtx_skip : forall ps n v r, ~ rtx_name n -> (rtx_value (ps ++ [(n, v)]) r <-> rtx_value ps r).
Proof. intros ps n v r N. unfold rtx_name in N. apply rtx_snoc_other; tauto. Qed.
Lemma rtx_insert : forall q l x r, ~ rtx_name (fst x) ->
  (rtx_value (l ++ x :: q) r <-> rtx_value (l ++ q) r).
Proof.
  induction q as [|[n v] q IH] using rev_ind; intros l x r N.
  - rewrite app_nil_r. destruct x as [n v]. apply rtx_skip, N.
  - change (l ++ x :: q ++ [(n, v)]) with (l ++ (x :: q) ++ [(n, v)]). rewrite !app_assoc.
    destruct (rtx_dec n) as [[A|A]|A].
    + rewrite !rtx_snoc_apt by exact A. split; intros (r' & y & R & K); exists r', y; (split; [|exact K]);
        eapply IH; eassumption.
    + rewrite !rtx_snoc_time by exact A. split; intros (r' & y & R & K); exists r', y; (split; [|exact K]);
        eapply IH; eassumption.
    + rewrite !rtx_skip by exact A. apply IH, N.
Qed.
Lemma rtx_swap : forall l x y q r, ~ (rtx_name (fst x) /\ rtx_name (fst y)) ->
  rtx_value (l ++ x :: y :: q) r -> rtx_value (l ++ y :: x :: q) r.
Proof.
  intros l x y q r N H. destruct (rtx_dec (fst x)) as [X|X].
  - assert (Y : ~ rtx_name (fst y)) by tauto.
    change (l ++ x :: y :: q) with (l ++ [x] ++ y :: q) in H. rewrite app_assoc in H.
    apply (rtx_insert q (l ++ [x]) y r Y) in H. rewrite <- app_assoc in H. cbn [app] in H.
    apply (proj2 (rtx_insert (x :: q) l y r Y)). exact H.
  - apply (rtx_insert (y :: q) l x r X) in H.
    change (l ++ y :: x :: q) with (l ++ [y] ++ x :: q). rewrite app_assoc.
    apply (proj2 (rtx_insert q (l ++ [y]) x r X)). rewrite <- app_assoc. exact H.
Qed.
Lemma state_swap : forall l x y q p,
  (Exists (means_upper (fst x)) fmtp_names \/ Exists (means_upper (fst y)) fmtp_names) ->
  (forall k, In k fmtp_names -> ~ (means_upper (fst x) k /\ means_upper (fst y) k)) ->
  ~ (rtx_name (fst x) /\ rtx_name (fst y)) ->
  fmtp_state (l ++ x :: y :: q) p -> fmtp_state (l ++ y :: x :: q) p.
Proof.
  intros l x y q p K D R H. unfold fmtp_state in *. cbv zeta in *. unfold option_field in *.
  decompose [and] H. clear H.
  repeat match goal with |- _ /\ _ => split end.
  all: try (eapply field_swap; [apply D; unfold fmtp_names; repeat (first [left; reflexivity | right]) | apply upper_dec; reflexivity | eassumption]).
  - eapply rtx_swap; eassumption.
  - assumption.
  - assumption.
  - match goal with W : exists us, others _ _ us /\ _ |- _ => destruct W as (us & O & ?Wu) end.
    exists us. split; [|eassumption]. apply others_swap; assumption.
Qed.
Lemma named_iff : forall t n v names, cut 61 t n v ->
  (fmtp_parameter_named t names <-> Exists (means_upper n) names).
Proof.
  intros t n v names C. split.
  - intros (n' & v' & C' & H). destruct (cut_fun _ _ _ _ _ _ C C') as [-> _]. exact H.
  - intro H. exists n, v. auto.
Qed.
Lemma list_swap : forall l a b r p, independent a b ->
  fmtp_list_value (l ++ a :: b :: r) p -> fmtp_list_value (l ++ b :: a :: r) p.
Proof.
  intros l a b r p (Ia & Ib & K & D & R) H. apply fmtp_state_spec in H. destruct H as (ps & F & H).
  apply Forall2_app_inv_l in F. destruct F as (pl & pr & Fl & Fr & ->).
  inversion Fr as [|? x ? pr' Ca Fr']; subst. inversion Fr' as [|? y ? pq Cb Fq]; subst.
  apply fmtp_state_spec. exists (pl ++ y :: x :: pq). split.
  - apply Forall2_app; [exact Fl|]. constructor; [exact Cb|]. constructor; [exact Ca | exact Fq].
  - apply state_swap; [..|exact H].
    + rewrite !named_iff in K by eassumption. exact K.
    + intros k Ik [Ha Hb]. apply (D k Ik). rewrite !named_iff by eassumption.
      split; constructor; assumption.
    + intros [Ha Hb]. apply R. rewrite !named_iff by eassumption. unfold rtx_name in *.
      split; [destruct Ha | destruct Hb]; [constructor 1|constructor 2; constructor 1|constructor 1|constructor 2; constructor 1]; assumption.
Qed.
Lemma independent_sym : forall a b, independent a b -> independent b a.
Proof.
  intros a b (Ia & Ib & K & D & R). split; [exact Ib|]. split; [exact Ia|]. split; [tauto|].
  split; [intros x Hx [P Q]; exact (D x Hx (conj Q P)) | tauto].
Qed.
Lemma reordered_sym : forall x y, reordered x y -> reordered y x.
Proof.
  intros x y H. induction H; [constructor|apply reordered_swap, independent_sym; assumption|].
  eapply reordered_trans; eassumption.
Qed.
Lemma reordered_value : forall x y p, reordered x y -> fmtp_list_value x p -> fmtp_list_value y p.
Proof. intros x y p H. induction H; intros V; auto. apply list_swap; assumption. Qed.
Lemma reordered_In : forall x y t, reordered x y -> In t x -> In t y.
Proof.
  intros x y t H. induction H; intro I; auto.
  apply in_app_or in I. apply in_or_app. destruct I as [I|[I|[I|I]]]; cbn; tauto.
Qed.

Lemma params_eq : forall block params, params_of block params -> In 61 block ->
  exists t, In t params /\ In 61 t.
Proof.
  intros block params (ts & F & ->) I. destruct (fields_char _ 61 _ _ F I) as (t & It & Ie); [lia|].
  exists t. split; [|auto]. apply filter_In. split; [exact It|]. destruct t; [destruct Ie | reflexivity].
Qed.
Lemma fields_sub : forall c s l t x, fields c s l -> In t l -> In x t -> In x s.
Proof. intros c s l t x F It Ix. apply fields_split in F. subst l. eapply split_chars; eassumption. Qed.
Lemma params_line : forall pt n block k l, numeral u8_max pt n -> core block block -> In 61 block ->
  (parse_sdp_line (lit "a=fmtp:" ++ pt ++ 32 :: block) k = Ok l <->
   exists params p, params_of block params /\ fmtp_list_value params p /\
     l = {| l_number := k;
            l_type := TyAttribute (AFmtp {| fmtp_payload_type := n; fmtp_parameters := p |});
            l_text := lit "a=fmtp:" ++ pt ++ 32 :: block |}).
Proof.
  intros pt n block k l Hp C I. rewrite (fmtp_block_line pt n) by (assumption || (intros ->; destruct I)).
  split.
  - intros (p & [(_ & ts & F & V)|[(K & _)|(K & _)]] & ->); try contradiction.
    eexists _, p. split; [exists ts; split; [exact F | reflexivity]|]. split; [exact V | reflexivity].
  - intros (params & p & (ts & F & ->) & V & ->). exists p. split; [|reflexivity]. left. split; [exact I|].
    exists ts. auto.
Qed.
Lemma params_reordered : forall pt n b1 b2 ps1 ps2 k p, numeral u8_max pt n ->
  core b1 b1 -> core b2 b2 -> params_of b1 ps1 -> params_of b2 ps2 -> reordered ps1 ps2 ->
  In 61 b1 ->
  parse_sdp_line (lit "a=fmtp:" ++ pt ++ 32 :: b1) k =
    Ok {| l_number := k;
          l_type := TyAttribute (AFmtp {| fmtp_payload_type := n; fmtp_parameters := p |});
          l_text := lit "a=fmtp:" ++ pt ++ 32 :: b1 |} ->
  parse_sdp_line (lit "a=fmtp:" ++ pt ++ 32 :: b2) k =
    Ok {| l_number := k;
          l_type := TyAttribute (AFmtp {| fmtp_payload_type := n; fmtp_parameters := p |});
          l_text := lit "a=fmtp:" ++ pt ++ 32 :: b2 |}.
Proof.
  intros pt n b1 b2 ps1 ps2 k p Hp C1 C2 P1 P2 R I1 H.
  assert (I2 : In 61 b2).
  { destruct (params_eq _ _ P1 I1) as (t & It & Ie). apply (reordered_In _ _ _ R) in It.
    destruct P2 as (ts & F & ->). apply filter_In in It. eapply fields_sub; [exact F|apply It | exact Ie]. }
  apply (params_line pt n) in H; [|assumption..]. destruct H as (params & p' & P & V & Eq).
  injection Eq as <-. apply (params_line pt n); [assumption..|]. exists ps2, p. split; [exact P2|]. split; [|reflexivity].
  eapply reordered_value; [exact R|]. destruct P as (ts & F & ->). destruct P1 as (ts' & F' & ->).
  apply fields_split in F, F'. rewrite F in F'. subst ts'. exact V.
Qed.
Lemma rtx_needs_apt : forall ps r, rtx_value ps r -> forall l n v q, ps = l ++ (n, v) :: q ->
  means_upper n "RTX-TIME" -> Exists (fun nv => means_upper (fst nv) "APT") l.
Proof.
  assert (Some_apt : forall ps r, rtx_value ps (Some r) -> Exists (fun nv => means_upper (fst nv) "APT") ps).
  { intros ps r H. remember (Some r) as o eqn:Ho. revert r Ho.
    induction H as [|ps o n v x R IH M V|ps o n v x R IH M V|ps o n v R IH M1 M2]; intros r Ho.
    - discriminate.
    - apply Exists_app. right. constructor. exact M.
    - apply Exists_app. left. eapply IH. reflexivity.
    - apply Exists_app. left. eapply IH. exact Ho. }
  intros ps r H. induction H as [|ps o n v x R IH M V|ps o n v x R IH M V|ps o n v R IH M1 M2];
    intros l n' v' q Eq T.
  - destruct l; discriminate.
  - destruct q as [|z q] using rev_ind.
    + apply app_inj_tail in Eq. destruct Eq as [-> Eq]. inv Eq. exfalso.
      apply means_upper_iff in M, T; try reflexivity. rewrite M in T. discriminate.
    + clear IHq. change ((n', v') :: q ++ [z]) with (((n', v') :: q) ++ [z]) in Eq. rewrite app_assoc in Eq.
      apply app_inj_tail in Eq. destruct Eq as [Eq _]. eapply IH; eassumption.
  - destruct q as [|z q] using rev_ind.
    + apply app_inj_tail in Eq. destruct Eq as [-> Eq]. eapply Some_apt. exact R.
    + clear IHq. change ((n', v') :: q ++ [z]) with (((n', v') :: q) ++ [z]) in Eq. rewrite app_assoc in Eq.
      apply app_inj_tail in Eq. destruct Eq as [Eq _]. eapply IH; eassumption.
  - destruct q as [|z q] using rev_ind.
    + apply app_inj_tail in Eq. destruct Eq as [-> Eq]. inv Eq. contradiction.
    + clear IHq. change ((n', v') :: q ++ [z]) with (((n', v') :: q) ++ [z]) in Eq. rewrite app_assoc in Eq.
      apply app_inj_tail in Eq. destruct Eq as [Eq _]. eapply IH; eassumption.
Qed.
Lemma time_needs_apt : forall l t r p, fmtp_list_value (l ++ t :: r) p ->
  fmtp_parameter_named t ["RTX-TIME"%string] ->
  Exists (fun x => fmtp_parameter_named x ["APT"%string]) l.
Proof.
  intros l t r p H T. apply fmtp_state_spec in H. destruct H as (ps & F & H).
  apply Forall2_app_inv_l in F. destruct F as (pl & pr & Fl & Fr & ->).
  inversion Fr as [|? x ? pr' Ct Fr']; subst. destruct x as [n v]. cbn [fst snd] in Ct.
  apply (named_iff _ _ _ _ Ct) in T. inversion T as [? ? M|? ? M]; subst; [|inversion M].
  unfold fmtp_state in H. cbv zeta in H. decompose [and] H.
  match goal with W : rtx_value _ _ |- _ => pose proof (rtx_needs_apt _ _ W pl n v pr' eq_refl M) as K end.
  clear - Fl K. revert l Fl. induction K as [[m w] pl M|[m w] pl K IH]; intros l Fl;
    inversion Fl as [|? t ? l' Ct Fl']; subst.
  - constructor. exists m, w. split; [exact Ct|]. constructor. exact M.
  - constructor 2. apply IH. assumption.
Qed.

(** A way to see independence by computation. *)
Definition known_upper (u : str) : bool := existsb (fun k => str_eqb u (of_string k)) fmtp_names.
Definition rtx_upper (u : str) : bool := str_eqb u (lit "APT") || str_eqb u (lit "RTX-TIME").
Lemma named_known : forall n, Exists (means_upper n) fmtp_names <-> known_upper (to_upper n) = true.
Proof.
  intro n. unfold known_upper. rewrite existsb_exists, Exists_exists.
  assert (U : Forall (fun k => upper_word (of_string k) = true) fmtp_names)
    by (unfold fmtp_names; repeat constructor).
  rewrite Forall_forall in U.
  split; intros (k & I & H); exists k; split; try exact I.
  - apply means_upper_iff in H; [|auto]. apply str_eqb_eq, H.
  - apply str_eqb_eq in H. apply means_upper_iff; [auto | exact H].
Qed.
Lemma independent_by : forall n1 v1 n2 v2, contains 61 n1 = false -> contains 61 n2 = false ->
  known_upper (to_upper n1) || known_upper (to_upper n2) = true ->
  str_eqb (to_upper n1) (to_upper n2) = false ->
  rtx_upper (to_upper n1) && rtx_upper (to_upper n2) = false ->
  independent (n1 ++ 61 :: v1) (n2 ++ 61 :: v2).
Proof.
  intros n1 v1 n2 v2 C1 C2 K D R. apply contains_not_In in C1, C2.
  assert (U1 : cut 61 (n1 ++ 61 :: v1) n1 v1) by (split; auto).
  assert (U2 : cut 61 (n2 ++ 61 :: v2) n2 v2) by (split; auto).
  unfold independent.
  split; [apply in_or_app; right; now left|]. split; [apply in_or_app; right; now left|].
  split; [|split].
  - rewrite (named_iff _ _ _ _ U1), (named_iff _ _ _ _ U2), !named_known. apply orb_prop, K.
  - intros x Hx. rewrite (named_iff _ _ _ _ U1), (named_iff _ _ _ _ U2). intros [H1 H2].
    inversion H1 as [? ? M1|? ? M1]; subst; [|inversion M1]. inversion H2 as [? ? M2|? ? M2]; subst; [|inversion M2].
    assert (U : upper_word (of_string x) = true).
    { assert (W : Forall (fun k => upper_word (of_string k) = true) fmtp_names)
        by (unfold fmtp_names; repeat constructor). rewrite Forall_forall in W. auto. }
    apply means_upper_iff in M1, M2; try exact U. rewrite M1, M2 in D.
    rewrite (proj2 (str_eqb_eq _ _) eq_refl) in D. discriminate.
  - rewrite (named_iff _ _ _ _ U1), (named_iff _ _ _ _ U2). intros [H1 H2].
    assert (A : forall n, Exists (means_upper n) ["APT"; "RTX-TIME"]%string -> rtx_upper (to_upper n) = true).
    { intros n H. unfold rtx_upper. apply orb_true_intro.
      inversion H as [? ? M|? ? M]; subst; [left|inversion M as [? ? M'|? ? M']; subst; [right|inversion M']];
        (apply str_eqb_eq; apply means_upper_iff in H0 || idtac).
      - apply means_upper_iff in M; [exact M | reflexivity].
      - apply means_upper_iff in M'; [exact M' | reflexivity]. }
    rewrite (A _ H1), (A _ H2) in R. discriminate.
Qed.
End WithExt.

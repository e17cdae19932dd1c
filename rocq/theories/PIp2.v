(** * The printed text of an IP address: proofs for C61 *)
From Coq Require Import List Arith NArith Bool Ascii String Lia.
From Coq Require Import ZifyBool ZifyNat ZifyN.
From Verif Require Import Str Num Net StrLemmas NumLemmas NetLemmas SpecIp PIp.
Import ListNotations.
Open Scope N_scope.
Open Scope list_scope.

(** ** Numbers have one text *)
Lemma same_length_inj : forall b x y, 1 <= b -> List.length x = List.length y ->
  Forall (fun d => d < b) x -> Forall (fun d => d < b) y -> pos_value b x = pos_value b y -> x = y.
Proof.
  intros b x y B L X Y E.
  rewrite <- (be_digits_of (List.length y) b x) by (auto; lia).
  rewrite <- (be_digits_of (List.length y) b y) at 2 by (auto; lia).
  rewrite E. reflexivity.
Qed.
Lemma canonical_le : forall b x y, 2 <= b -> Forall (fun d => d < b) x -> Forall (fun d => d < b) y ->
  canonical x -> canonical y -> pos_value b x = pos_value b y -> (List.length x <= List.length y)%nat.
Proof.
  intros b x y B X Y [X0 X1] [Y0 Y1] E. destruct y as [|e y]; [congruence|].
  destruct X1 as [X1|[d [x' [-> D]]]]; [cbn; lia|].
  pose proof (pos_value_bound b (e :: y) ltac:(lia) Y) as Q. rewrite <- E in Q.
  cbn [pos_value List.length] in Q |- *.
  destruct (le_lt_dec (S (List.length x')) (S (List.length y))) as [H|H]; [exact H|].
  assert (b ^ N.of_nat (S (List.length y)) <= b ^ N.of_nat (List.length x')) by (apply N.pow_le_mono_r; lia).
  nia.
Qed.
Lemma digits_canonical : forall b s ds, 1 <= b -> b <= 16 -> Forall2 (fun c d => to_digit b c = Some d) s ds ->
  s <> [] -> no_leading_zero s -> canonical ds /\ Forall (fun d => d < b) ds.
Proof.
  intros b s ds B B16 F S0 Z. split.
  - destruct F as [|c d s ds D F]; [congruence|]. split; [discriminate|].
    destruct (N.eq_dec d 0) as [->|H]; [left|right; exists d, ds; split; [reflexivity|lia]].
    apply digit_is_iff in D; [|exact B16]. assert (c = 48) by (unfold digit_is in D; lia). subst c.
    rewrite (Z s eq_refl) in F. inversion F; reflexivity.
  - clear S0 Z. induction F as [|c d s ds D F IH]; constructor; auto. apply digit_is_iff in D; tauto.
Qed.
Lemma lower_digits : forall b s ds, b <= 16 -> Forall2 (fun c d => to_digit b c = Some d) s ds -> lower s ->
  s = map digit_lower ds.
Proof.
  intros b s ds B F L. induction F as [|c d s ds D F IH]; [reflexivity|]. inversion L as [|? ? L1 L2]; subst.
  cbn [map]. rewrite <- IH by exact L2. f_equal. apply digit_is_iff in D; [|exact B].
  unfold digit_is, digit_lower in *. destruct (d <? 10) eqn:E; lia.
Qed.
Lemma one_text : forall b s n, 2 <= b -> b <= 16 -> digits_are b s n -> s <> [] -> no_leading_zero s -> lower s ->
  s = show_radix digit_lower b n.
Proof.
  intros b s n B2 B D S0 Z L. apply digits_are_iff in D; [|exact B]. destruct D as [ds [F ->]].
  destruct (digits_canonical b s ds ltac:(lia) B F S0 Z) as [C1 C2].
  destruct (show_radix_spec digit_lower b (pos_value b ds) B2) as [es [-> [E2 [E3 E4]]]].
  rewrite (lower_digits b s ds B F L). f_equal.
  apply (same_length_inj b); auto; [lia|].
  apply Nat.le_antisymm; apply (canonical_le b); auto.
Qed.
Lemma dec_lower : forall s n, digits_are 10 s n -> lower s.
Proof.
  induction 1 as [|s n c d H IH D B]; [constructor|]. apply Forall_app. split; [exact IH|].
  constructor; [|constructor]. unfold digit_is in D. lia.
Qed.
Lemma octet_one : forall s n, octet_text s n -> s = show_N n.
Proof.
  intros s n [D [L [Z _]]]. apply one_text; auto; try lia; [|eapply dec_lower; eauto].
  intros ->. cbn in L. lia.
Qed.
Lemma octet_show : forall n, n <= 255 -> octet_text (show_N n) n.
Proof.
  intros n H. pose proof (read_dec n [] H I) as R. apply read_octet_iff in R.
  destruct R as [p [E [_ O]]]. rewrite !app_nil_r in E. rewrite E. exact O.
Qed.
Lemma printed_group_one : forall s n, printed_group s n -> s = show_hex n.
Proof.
  intros s n [[D L] [Z K]]. apply one_text; auto; try lia. intros ->. cbn in L. lia.
Qed.
Lemma show_hex_lower : forall n, lower (show_hex n).
Proof.
  intros n. destruct (show_radix_spec digit_lower 16 n ltac:(lia)) as [ds [E [F _]]].
  change (show_radix digit_lower 16 n) with (show_hex n) in E. rewrite E.
  clear E. unfold lower. induction F as [|d ds D F IH]; cbn [map]; constructor; auto.
  unfold digit_lower. destruct (d <? 10) eqn:K; lia.
Qed.
Lemma show_hex_no_zero : forall n, no_leading_zero (show_hex n).
Proof.
  intros n t E. destruct (show_radix_spec digit_lower 16 n ltac:(lia)) as [ds [E1 [F [_ [N0 C]]]]].
  change (show_radix digit_lower 16 n) with (show_hex n) in E1. rewrite E1 in E.
  destruct ds as [|d ds]; [congruence|]. cbn [map] in E. injection E as D T.
  apply digit_lower_zero in D. subst d. destruct C as [C|[d' [ds' [C P]]]].
  - destruct ds; [symmetry; exact T|discriminate C].
  - injection C as <- _. lia.
Qed.
Lemma printed_group_show : forall n, n <= 65535 -> printed_group (show_hex n) n.
Proof.
  intros n H. split; [|split; [apply show_hex_no_zero|apply show_hex_lower]].
  pose proof (read_hex n [] H I) as R. apply read_group_iff in R.
  destruct R as [p [E [_ G]]]. rewrite !app_nil_r in E. rewrite E. exact G.
Qed.

(** ** Rows of groups *)
Lemma printed_groups_one : forall s l, printed_groups s l -> s = fmt_subslice l.
Proof.
  induction 1 as [|s g H|s g t h l H K IH].
  - reflexivity.
  - apply printed_group_one in H. subst. reflexivity.
  - rewrite fmt_subslice_cons by discriminate. apply printed_group_one in H. subst. reflexivity.
Qed.
Lemma printed_groups_show : forall l, Forall (fun g => g <= 65535) l -> printed_groups (fmt_subslice l) l.
Proof.
  induction 1 as [|g l H F IH]; [constructor|]. destruct l as [|h l].
  - change (fmt_subslice [g]) with (show_hex g). constructor. apply printed_group_show. exact H.
  - rewrite fmt_subslice_cons by discriminate.
    apply (printed_more (show_hex g) g (fmt_subslice (h :: l)) h l); [apply printed_group_show; exact H|exact IH].
Qed.

(** ** Quads *)
Lemma quad_one : forall s a b c d, quad_text s a b c d -> s = join [c_dot] (map show_N [a; b; c; d]).
Proof.
  intros s a b c d [p [q [r [t [-> [A [B [C D]]]]]]]].
  apply octet_one in A, B, C, D. subst. reflexivity.
Qed.
Lemma quad_le : forall s a b c d, quad_text s a b c d -> a <= 255 /\ b <= 255 /\ c <= 255 /\ d <= 255.
Proof. intros s a b c d [p [q [r [t [_ [A [B [C D]]]]]]]]. unfold octet_text in *. tauto. Qed.
Lemma quad_show : forall a b c d, a <= 255 -> b <= 255 -> c <= 255 -> d <= 255 ->
  quad_text (join [c_dot] (map show_N [a; b; c; d])) a b c d.
Proof.
  intros a b c d A B C D. exists (show_N a), (show_N b), (show_N c), (show_N d).
  split; [reflexivity|]. auto using octet_show.
Qed.
Lemma octets_quad : forall a b c d, a <= 255 -> b <= 255 -> c <= 255 -> d <= 255 ->
  octets4 (((a * 256 + b) * 256 + c) * 256 + d) = [a; b; c; d].
Proof.
  intros a b c d A B C D. rewrite <- quad_value, of_be_value. apply be_digits_of; [lia|reflexivity|].
  repeat constructor; lia.
Qed.
Lemma ip4_one : forall s n, ip4_text s n -> s = show_ip4 n.
Proof.
  intros s n [a [b [c [d [Q ->]]]]]. pose proof (quad_le _ _ _ _ _ Q) as [A [B [C D]]].
  unfold show_ip4. rewrite octets_quad by auto. apply quad_one. exact Q.
Qed.
Lemma ip4_show : forall n, n <= u32_max -> ip4_text (show_ip4 n) n.
Proof. intros n H. apply ip4_texts. apply parse_show_ip4. exact H. Qed.

(** ** The run of zeros *)
Definition covers (pre : list N) (z : span) : Prop :=
  forall f j b, pre = f ++ repeat 0 j ++ b -> (1 <= j)%nat ->
    (j <= sp_len z)%nat /\ (j = sp_len z -> (sp_start z <= List.length f)%nat).
Lemma snoc_split : forall {A} (p q r : list A) x, p ++ [x] = q ++ r -> r <> [] -> exists r', r = r' ++ [x] /\ p = q ++ r'.
Proof.
  intros A p q r x E R. destruct (exists_last R) as [r' [y ->]]. exists r'. rewrite app_assoc in E.
  apply app_inj_tail in E. destruct E as [-> ->]. auto.
Qed.
Lemma zero_span_covers : forall segs i longest current pre L,
  L = pre ++ segs -> List.length pre = i ->
  covers pre longest -> (sp_len longest = 0 \/ sp_start longest + sp_len longest <= List.length pre)%nat ->
  (sp_len current = 0%nat \/ (sp_start current + sp_len current = List.length pre)%nat) ->
  (forall f j, pre = f ++ repeat 0 j -> (j <= sp_len current)%nat) ->
  (sp_len current <= sp_len longest)%nat ->
  covers L (zero_span i segs longest current).
Proof.
  induction segs as [|s segs IH]; intros i longest current pre L HL Hi C1 C2 C3 C4 C5; cbn [zero_span].
  { rewrite app_nil_r in HL. subst L. exact C1. }
  destruct (s =? 0) eqn:Es.
  - apply N.eqb_eq in Es. subst s.
    set (cur := {| sp_start := if Nat.eqb (sp_len current) 0 then i else sp_start current;
                   sp_len := S (sp_len current) |}).
    assert (HC : (sp_start cur + sp_len cur = S (List.length pre))%nat).
    { cbn [cur sp_len sp_start]. destruct (Nat.eqb (sp_len current) 0) eqn:E0.
      - apply Nat.eqb_eq in E0. lia.
      - apply Nat.eqb_neq in E0. lia. }
    assert (HE : forall f j, pre ++ [0] = f ++ repeat 0 j -> (j <= sp_len cur)%nat).
    { intros f j E. destruct j as [|j]; [lia|]. cbn [repeat] in E. rewrite repeat_cons, app_assoc in E.
      apply app_inj_tail in E. destruct E as [E _]. apply C4 in E. cbn [cur sp_len]. lia. }
    apply (IH _ _ _ (pre ++ [0])).
    + rewrite <- app_assoc. exact HL.
    + rewrite app_length. cbn. lia.
    + intros f j b E J. destruct b as [|x b].
      * rewrite app_nil_r in E. pose proof (HE _ _ E) as Hj.
        apply (f_equal (@List.length N)) in E. rewrite !app_length, repeat_length in E. cbn [List.length] in E.
        destruct (Nat.ltb (sp_len longest) (sp_len cur)) eqn:El.
        -- split; [exact Hj|lia].
        -- apply Nat.ltb_ge in El. split; [lia|]. intros Ej. lia.
      * rewrite app_assoc in E. apply snoc_split in E; [|discriminate]. destruct E as [b' [_ E]].
        rewrite <- app_assoc in E. destruct (C1 _ _ _ E J) as [K1 K2].
        destruct (Nat.ltb (sp_len longest) (sp_len cur)) eqn:El.
        -- apply Nat.ltb_lt in El. split; lia.
        -- split; assumption.
    + rewrite app_length. cbn [List.length]. destruct (Nat.ltb (sp_len longest) (sp_len cur)); [right; lia|lia].
    + rewrite app_length. cbn [List.length]. right. lia.
    + exact HE.
    + destruct (Nat.ltb (sp_len longest) (sp_len cur)) eqn:El; [lia|]. apply Nat.ltb_ge in El. exact El.
  - apply N.eqb_neq in Es.
    assert (HE : forall f j, pre ++ [s] = f ++ repeat 0 j -> j = 0%nat).
    { intros f j E. destruct j as [|j]; [reflexivity|]. cbn [repeat] in E. rewrite repeat_cons, app_assoc in E.
      apply app_inj_tail in E. destruct E as [_ E]. congruence. }
    apply (IH _ _ _ (pre ++ [s])).
    + rewrite <- app_assoc. exact HL.
    + rewrite app_length. cbn. lia.
    + intros f j b E J. destruct b as [|x b].
      * rewrite app_nil_r in E. apply HE in E. lia.
      * rewrite app_assoc in E. apply snoc_split in E; [|discriminate]. destruct E as [b' [_ E]].
        rewrite <- app_assoc in E. exact (C1 _ _ _ E J).
    + rewrite app_length. cbn [List.length]. lia.
    + left. reflexivity.
    + intros f j E. apply HE in E. cbn. lia.
    + cbn. lia.
Qed.

Lemma printed_plain : forall l, Forall (fun g => g <= 65535) l -> ~ mapped l -> printed_ip6 l (show_ip6_plain l).
Proof.
  intros l F M. unfold show_ip6_plain. set (z := zero_span 0 l _ _).
  assert (C : covers l z).
  { apply (zero_span_covers l 0 _ _ [] l); auto; cbn; try lia.
    - intros f j b E J. destruct f; [|discriminate E]. destruct j; [lia|discriminate E].
    - intros f j E. destruct f; [|discriminate E]. destruct j; [cbn; lia|discriminate E]. }
  destruct (Nat.ltb 1 (sp_len z)) eqn:Ez.
  - apply Nat.ltb_lt in Ez.
    destruct (zero_span_ok l 0 {| sp_start := 0; sp_len := 0 |} {| sp_start := 0; sp_len := 0 |}
                [] l eq_refl eq_refl (or_introl eq_refl) (or_introl eq_refl)) as [K|[a [b [K1 K2]]]];
      fold z in K || fold z in K1, K2; [lia|].
    assert (L1 : firstn (sp_start z) l = a).
    { rewrite K1, <- K2. rewrite firstn_app, Nat.sub_diag, firstn_all. cbn. apply app_nil_r. }
    assert (L2 : skipn (sp_start z + sp_len z) l = b).
    { rewrite K1, app_assoc. rewrite skipn_app.
      rewrite skipn_all2 by (rewrite app_length, repeat_length; lia).
      rewrite app_length, repeat_length.
      replace (sp_start z + sp_len z - (List.length a + sp_len z))%nat with 0%nat by lia. reflexivity. }
    rewrite L1, L2. assert (HF := F). rewrite K1 in HF.
    apply Forall_app in HF. destruct HF as [Fa HF]. apply Forall_app in HF. destruct HF as [_ Fb].
    apply (printed_short l _ a (sp_len z) b (fmt_subslice a) (fmt_subslice b)); auto using printed_groups_show.
    intros f j x E. destruct j as [|j]; [lia|]. rewrite K2. apply (C f (S j) x E). lia.
  - apply Nat.ltb_ge in Ez. apply printed_full; auto using printed_groups_show.
    intros p q E. destruct (C p 2%nat q E ltac:(lia)) as [K _]. lia.
Qed.

Lemma app_same : forall {A} (a b c d : list A), List.length a = List.length c -> a ++ b = c ++ d -> a = c /\ b = d.
Proof.
  intros A a. induction a as [|x a IH]; intros b [|y c] d L E; cbn in *; try discriminate; auto.
  injection E as -> E. destruct (IH b c d ltac:(lia) E) as [-> ->]. auto.
Qed.
Lemma printed6_one : forall l s t, printed_ip6 l s -> printed_ip6 l t -> s = t.
Proof.
  intros l s t H K.
  destruct H as [a b c d q E Q ->|M Z G|f k b p q M E K2 X P Q ->];
  destruct K as [a' b' c' d' q' E' Q' ->|M' Z' G'|f' k' b' p' q' M' E' K2' X' P' Q' ->].
  - rewrite E in E'. injection E' as E1 E2.
    pose proof (quad_le _ _ _ _ _ Q). pose proof (quad_le _ _ _ _ _ Q').
    assert (a = a' /\ b = b' /\ c = c' /\ d = d') as [-> [-> [-> ->]]] by lia.
    apply quad_one in Q, Q'. congruence.
  - exfalso. apply M'. rewrite E. eexists _, _. reflexivity.
  - exfalso. apply M'. rewrite E. eexists _, _. reflexivity.
  - exfalso. apply M. rewrite E'. eexists _, _. reflexivity.
  - apply printed_groups_one in G, G'. congruence.
  - exfalso. destruct k' as [|[|k']]; [lia..|]. cbn [repeat app] in E'. exact (Z _ _ E').
  - exfalso. apply M. rewrite E'. eexists _, _. reflexivity.
  - exfalso. destruct k as [|[|k]]; [lia..|]. cbn [repeat app] in E. exact (Z' _ _ E).
  - destruct (X _ _ _ E') as [A1 A2]. destruct (X' _ _ _ E) as [B1 B2].
    assert (k = k') by lia. subst k'. specialize (A2 eq_refl). specialize (B2 eq_refl).
    rewrite E in E'. destruct (app_same f _ f' _ ltac:(lia) E') as [-> E2].
    apply app_inv_head in E2. subst b'.
    apply printed_groups_one in P, P', Q, Q'. congruence.
Qed.

Lemma mapped_or_not : forall l, mapped l \/ ~ mapped l.
Proof.
  intros l. unfold mapped. destruct (list_eq_dec N.eq_dec (firstn 6 l) [0; 0; 0; 0; 0; 65535]) as [E|E].
  - destruct (Nat.eq_dec (List.length l) 8) as [L|L].
    + left. destruct l as [|s0 [|s1 [|s2 [|s3 [|s4 [|s5 [|x [|y [|? ?]]]]]]]]]; try discriminate L.
      cbn [firstn] in E. exists x, y. injection E as -> -> -> -> -> ->. reflexivity.
    + right. intros [x [y ->]]. apply L. reflexivity.
  - right. intros [x [y ->]]. apply E. reflexivity.
Qed.
Lemma printed6_show : forall n, printed_ip6 (segments6 n) (show_ip6 n).
Proof.
  intros n. destruct (segments6_ok n) as [F L]. destruct (mapped_or_not (segments6 n)) as [[ab [cd E]]|M].
  - assert (T : show_ip6 n = lit "::ffff:" ++ show_ip4 (ab * 65536 + cd)) by (unfold show_ip6; rewrite E; reflexivity).
    rewrite T. rewrite E in F. do 6 (inversion F as [|? ? _ F']; subst; clear F; rename F' into F).
    inversion F as [|? ? H1 F']; subst. inversion F' as [|? ? H2 _]; subst.
    destruct (octets4_four (ab * 65536 + cd)) as [a [b [c [d [O R]]]]].
    assert (V : of_be 256 [a; b; c; d] = ab * 65536 + cd)
      by (rewrite <- O; apply octets4_value; unfold u32_max; lia).
    rewrite quad_value in V.
    pose proof (be_digits_lt 4 256 (ab * 65536 + cd) ltac:(lia)) as B.
    change (be_digits 4 256 (ab * 65536 + cd)) with (octets4 (ab * 65536 + cd)) in B. rewrite O in B.
    inversion B as [|? ? B1 HB1]; subst. inversion HB1 as [|? ? B2 HB2]; subst.
    inversion HB2 as [|? ? B3 HB3]; subst. inversion HB3 as [|? ? B4 _]; subst.
    assert (ab = a * 256 + b /\ cd = c * 256 + d) as [-> ->] by lia.
    apply (printed_mapped _ _ a b c d (show_ip4 ((a * 256 + b) * 65536 + (c * 256 + d)))); auto.
    unfold show_ip4. rewrite O. apply quad_show; lia.
  - destruct (show_ip6_cases n) as [[ab [cd [E _]]]| ->].
    + exfalso. apply M. rewrite E. eexists _, _. reflexivity.
    + apply printed_plain; auto.
Qed.

Lemma printed_texts : forall a s, address_value a -> (show_ip a = s <-> printed_ip a s).
Proof.
  intros [n|n] s H; cbn [address_value show_ip printed_ip] in *.
  - change (2 ^ 32) with 4294967296 in H. split.
    + intros <-. apply ip4_show. unfold u32_max. lia.
    + intros K. symmetry. apply ip4_one. exact K.
  - change (2 ^ 128) with 340282366920938463463374607431768211456 in H. split.
    + intros <-. exists (segments6 n). destruct (segments6_ok n) as [F L]. split; [exact L|]. split.
      * eapply Forall_impl; [|exact F]. intros g G. cbv beta in G. lia.
      * split; [|apply printed6_show]. rewrite groups_value_pos, <- of_be_value. symmetry.
        apply segments6_value. unfold u128_max. lia.
    + intros [l [L [F [-> P]]]].
      assert (S6 : segments6 (groups_value l) = l).
      { rewrite groups_value_pos. apply be_digits_of; auto. lia. }
      eapply printed6_one; [|exact P]. rewrite <- S6 at 1. apply printed6_show.
Qed.
Lemma printed_is_text : forall a s, printed_ip a s -> address_value a -> ip_text s a.
Proof.
  intros a s P H. apply printed_texts in P; [|exact H]. subst s. apply ip_texts. apply parse_show_ip.
  destruct a as [n|n]; cbn [ip_ok address_value] in *; unfold u32_max, u128_max.
  - change (2 ^ 32) with 4294967296 in H. lia.
  - change (2 ^ 128) with 340282366920938463463374607431768211456 in H. lia.
Qed.
Lemma texts_are_values : forall s a, ip_text s a -> address_value a.
Proof.
  intros s a H. apply ip_texts in H. apply parse_ip_ok in H. destruct a as [n|n]; cbn [ip_ok address_value] in *.
  - change (2 ^ 32) with 4294967296. unfold u32_max in H. lia.
  - change (2 ^ 128) with 340282366920938463463374607431768211456. unfold u128_max in H. lia.
Qed.
Lemma one_address : forall s a b, ip_text s a -> ip_text s b -> a = b.
Proof. intros s a b A B. apply ip_texts in A, B. congruence. Qed.
(** IPv4 has one text per address. *)
Lemma ip4_single : forall s t n, ip4_text s n -> ip4_text t n -> s = t.
Proof. intros s t n A B. apply ip4_one in A, B. congruence. Qed.

(** ** In lines *)
Lemma text_chars : forall s a, ip_text s a -> Forall (fun c => 46 <= c <= 102 /\ c <> 47) s.
Proof.
  assert (D : forall b s n, digits_are b s n -> Forall (fun c => 46 <= c <= 102 /\ c <> 47) s).
  { induction 1 as [|s n c d H IH Hd Hb]; [constructor|]. apply Forall_app. split; [exact IH|].
    constructor; [|constructor]. unfold digit_is in Hd. lia. }
  assert (P : forall x, x = 46 \/ x = 58 -> Forall (fun c => 46 <= c <= 102 /\ c <> 47) [x])
    by (intros x X; constructor; [lia|constructor]).
  assert (Q : forall s a b c d, quad_text s a b c d -> Forall (fun c => 46 <= c <= 102 /\ c <> 47) s).
  { intros s a b c d [p [q [r [t [-> [[A _] [[B _] [[C _] [F _]]]]]]]]].
    repeat (apply Forall_app; split); eauto. }
  assert (G : forall quad s l, groups_text quad s l -> Forall (fun c => 46 <= c <= 102 /\ c <> 47) s).
  { induction 1 as [s g [H _]|s a b c d _ H|s g t l [H _] K IH]; eauto.
    apply Forall_app; split; [eauto|]. apply Forall_app. auto. }
  assert (GN : forall quad s l, groups_or_none quad s l -> Forall (fun c => 46 <= c <= 102 /\ c <> 47) s).
  { intros quad s l [[-> _]|H]; [constructor|eauto]. }
  intros s [n|n] H; cbn [ip_text] in H.
  - destruct H as [a [b [c [d [H _]]]]]. eauto.
  - destruct H as [l [[[H _]|[p [q [h [t [k [-> [H1 [H2 _]]]]]]]]] _]]; [eauto|].
    apply Forall_app; split; [eauto|]. apply Forall_app; split; [|eauto].
    repeat constructor; lia.
Qed.
Lemma ip6_colon : forall s n, ip6_text s n -> In 58 s.
Proof.
  intros s n [l [[[H L]|[p [q [h [t [k [-> _]]]]]]] _]].
  - destruct H as [s g H|s a b c d _ H|s g t l H K]; [discriminate L|discriminate L|].
    apply in_app_iff. right. left. reflexivity.
  - apply in_app_iff. right. left. reflexivity.
Qed.

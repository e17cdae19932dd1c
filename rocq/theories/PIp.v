(** * The texts of IP addresses: proofs for C61 *)
From Coq Require Import List Arith NArith Bool Ascii String Lia.
From Coq Require Import ZifyBool ZifyNat ZifyN.
From Verif Require Import Str Num Net StrLemmas NumLemmas NetLemmas SpecIp.
Import ListNotations.
Open Scope N_scope.
Open Scope list_scope.

Lemma digit_is_iff : forall b c d, b <= 16 -> (digit_is c d /\ d < b <-> to_digit b c = Some d).
Proof.
  intros b c d B. unfold digit_is, to_digit.
  destruct ((48 <=? c) && (c <=? 57)) eqn:E1; [|destruct ((97 <=? c) && (c <=? 102)) eqn:E2;
    [|destruct ((65 <=? c) && (c <=? 70)) eqn:E3]]; cbv zeta iota beta.
  - destruct (c - 48 <? b) eqn:E; split; intros H; try discriminate; try (f_equal; lia);
      try (injection H as <-; lia); lia.
  - destruct (c - 87 <? b) eqn:E; split; intros H; try discriminate; try (f_equal; lia);
      try (injection H as <-; lia); lia.
  - destruct (c - 55 <? b) eqn:E; split; intros H; try discriminate; try (f_equal; lia);
      try (injection H as <-; lia); lia.
  - split; intros H; [lia|discriminate].
Qed.
Lemma digits_are_iff : forall b s n, b <= 16 -> (digits_are b s n <->
  exists ds, Forall2 (fun c d => to_digit b c = Some d) s ds /\ n = pos_value b ds).
Proof.
  intros b s n B. split.
  - induction 1 as [|s n c d H IH Hd Hb].
    + exists []. split; [constructor|reflexivity].
    + destruct IH as [ds [F ->]]. exists (ds ++ [d]). split.
      * apply Forall2_app; [exact F|]. constructor; [|constructor]. apply digit_is_iff; auto.
      * rewrite pos_value_app. cbn [pos_value List.length]. change (N.of_nat 1) with 1.
        change (N.of_nat 0) with 0. rewrite N.pow_0_r, N.pow_1_r. lia.
  - intros [ds [F ->]]. revert s F. induction ds as [|d ds IH] using rev_ind; intros s F.
    + inversion F; subst. constructor.
    + apply Forall2_app_inv_r in F. destruct F as [s1 [s2 [F1 [F2 ->]]]].
      inversion F2 as [|c d' s3 ds' Hd F3]; subst. inversion F3; subst.
      rewrite pos_value_app. cbn [pos_value List.length]. change (N.of_nat 1) with 1.
      change (N.of_nat 0) with 0. rewrite N.pow_0_r, N.pow_1_r.
      replace (pos_value b ds * b + (d * 1 + 0)) with (pos_value b ds * b + d) by lia.
      apply digit_is_iff in Hd; [|exact B]. constructor; [apply IH; exact F1|tauto|tauto].
Qed.
Lemma read_digits_iff : forall radix s left acc v rest,
  read_digits radix left acc s = Some (v, rest) ->
  exists p ds, s = p ++ rest /\ Forall2 (fun c d => to_digit radix c = Some d) p ds /\
    (List.length p <= left)%nat /\ stops radix rest /\
    v = acc * radix ^ N.of_nat (List.length ds) + pos_value radix ds.
Proof.
  intros radix s. induction s as [|c s IH]; intros left acc v rest H.
  - assert (K : v = acc /\ rest = []) by (destruct left; cbn [read_digits] in H; inv H; auto).
    destruct K as [-> ->]. exists [], []. repeat split; auto; cbn; lia.
  - destruct (to_digit radix c) as [d|] eqn:Hd.
    + destruct left as [|left]; cbn [read_digits] in H; rewrite Hd in H; [discriminate|].
      apply IH in H. destruct H as [p [ds [-> [F [L [T ->]]]]]]. exists (c :: p), (d :: ds).
      split; [reflexivity|]. split; [constructor; auto|]. split; [cbn; lia|]. split; [exact T|].
      cbn [List.length pos_value]. rewrite Nat2N.inj_succ, N.pow_succ_r'. ring.
    + assert (K : v = acc /\ rest = c :: s)
        by (destruct left; cbn [read_digits] in H; rewrite Hd in H; inv H; auto).
      destruct K as [-> ->]. exists [], []. repeat split; auto; cbn; lia.
Qed.
Lemma Forall2_len : forall {A B} (R : A -> B -> Prop) l m, Forall2 R l m -> List.length l = List.length m.
Proof. induction 1; cbn; congruence. Qed.

Lemma leading_zero_iff : forall s r, s <> [] ->
  (starts_with_char 48 (s ++ r) && Nat.ltb 1 (List.length s) = false <-> no_leading_zero s).
Proof.
  intros [|c s] r N0; [congruence|]. clear N0. unfold no_leading_zero. cbn [app starts_with_char List.length].
  split.
  - intros H t K. injection K as -> ->. rewrite N.eqb_refl in H. cbn [andb] in H.
    destruct t; [reflexivity|discriminate H].
  - intros H. destruct (c =? 48) eqn:E; [|reflexivity]. apply N.eqb_eq in E. subst c.
    rewrite (H s eq_refl). reflexivity.
Qed.
Lemma read_number_iff : forall radix k z lim s v rest, radix <= 16 ->
  (read_number radix k z lim s = Some (v, rest) <->
   exists p, s = p ++ rest /\ stops radix rest /\ digits_are radix p v /\
     (1 <= List.length p <= k)%nat /\ (z = false -> no_leading_zero p) /\ v <= lim).
Proof.
  intros radix k z lim s v rest R. unfold read_number. split.
  - destruct (read_digits radix k 0 s) as [[v' r]|] eqn:E; [|discriminate].
    apply read_digits_iff in E. destruct E as [p [ds [-> [F [L [T ->]]]]]].
    rewrite app_length. replace (List.length p + List.length r - List.length r)%nat with (List.length p) by lia.
    destruct (Nat.eqb (List.length p) 0) eqn:E0; [discriminate|]. apply Nat.eqb_neq in E0.
    destruct (negb z && starts_with_char 48 (p ++ r) && Nat.ltb 1 (List.length p)) eqn:EZ; [discriminate|].
    rewrite N.mul_0_l, N.add_0_l. destruct (pos_value radix ds <=? lim) eqn:EL; [|discriminate].
    intros H. inv H. exists p. split; [reflexivity|]. split; [exact T|]. split.
    { apply digits_are_iff; eauto. }
    split; [lia|]. split; [|lia]. intros ->. cbn [negb] in EZ. rewrite andb_true_l in EZ.
    apply leading_zero_iff in EZ; [exact EZ|]. intros ->. cbn in E0. lia.
  - intros [p [-> [T [D [L [Z V]]]]]]. apply digits_are_iff in D; [|exact R]. destruct D as [ds [F ->]].
    pose proof (Forall2_len _ _ _ F) as FL.
    rewrite (read_digits_app radix p ds k 0 rest F ltac:(lia) T). rewrite N.mul_0_l, N.add_0_l.
    rewrite app_length. replace (List.length p + List.length rest - List.length rest)%nat with (List.length p) by lia.
    destruct (Nat.eqb (List.length p) 0) eqn:E0; [apply Nat.eqb_eq in E0; lia|].
    assert (EZ : negb z && starts_with_char 48 (p ++ rest) && Nat.ltb 1 (List.length p) = false).
    { destruct z; [reflexivity|]. cbn [negb]. rewrite andb_true_l. apply leading_zero_iff; auto.
      intros ->. cbn in L. lia. }
    rewrite EZ. replace (pos_value radix ds <=? lim) with true by lia. reflexivity.
Qed.

Lemma stops_dec : forall c s, ~ 48 <= c <= 57 -> stops 10 (c :: s).
Proof.
  intros c s H. cbn [stops]. unfold to_digit.
  destruct ((48 <=? c) && (c <=? 57)) eqn:E1; [lia|].
  destruct ((97 <=? c) && (c <=? 102)) eqn:E2; [|destruct ((65 <=? c) && (c <=? 70)) eqn:E3]; cbv zeta iota beta;
    try reflexivity.
  - replace (c - 87 <? 10) with false by lia. reflexivity.
  - replace (c - 55 <? 10) with false by lia. reflexivity.
Qed.
Lemma read_octet_iff : forall s v rest, read_number 10 3 false 255 s = Some (v, rest) <->
  exists p, s = p ++ rest /\ stops 10 rest /\ octet_text p v.
Proof.
  intros s v rest. rewrite read_number_iff by lia. unfold octet_text. split.
  - intros [p [-> [T [D [L [Z V]]]]]]. exists p. tauto.
  - intros [p [-> [T [D [L [Z V]]]]]]. exists p. tauto.
Qed.
Lemma digits_bound : forall b s n, b <= 16 -> 1 <= b -> digits_are b s n -> n < b ^ N.of_nat (List.length s).
Proof.
  intros b s n B B1 H. apply digits_are_iff in H; [|exact B]. destruct H as [ds [F ->]].
  rewrite (Forall2_len _ _ _ F). apply pos_value_bound; [exact B1|].
  clear -F B. induction F as [|c d s ds H F IH]; constructor; auto.
  apply digit_is_iff in H; tauto.
Qed.
Lemma group_bound : forall s n, group_text s n -> n <= 65535.
Proof.
  intros s n [D L]. apply digits_bound in D; [|lia..].
  assert (16 ^ N.of_nat (List.length s) <= 16 ^ 4) by (apply N.pow_le_mono_r; lia).
  change (16 ^ 4) with 65536 in *. lia.
Qed.
Lemma read_group_iff : forall s v rest, read_number 16 4 true 65535 s = Some (v, rest) <->
  exists p, s = p ++ rest /\ stops 16 rest /\ group_text p v.
Proof.
  intros s v rest. rewrite read_number_iff by lia. split.
  - intros [p [-> [T [D [L [Z V]]]]]]. exists p. unfold group_text. tauto.
  - intros [p [-> [T G]]]. pose proof (group_bound _ _ G). destruct G as [D L]. exists p.
    repeat split; auto; try lia; discriminate.
Qed.

(** ** Quads *)
Lemma read_quad_iff : forall s o rest, read_ipv4 s = Some (o, rest) <->
  exists p a b c d, s = p ++ rest /\ stops 10 rest /\ quad_text p a b c d /\ o = [a; b; c; d].
Proof.
  intros s o rest. unfold read_ipv4. split.
  - cbn [read_octets read_separator].
    destruct (read_number 10 3 false 255 s) as [[a r1]|] eqn:E1; [|discriminate].
    destruct r1 as [|x1 r1]; [discriminate|]. destruct (x1 =? c_dot) eqn:X1; [|discriminate].
    destruct (read_number 10 3 false 255 r1) as [[b r2]|] eqn:E2; [|discriminate].
    destruct r2 as [|x2 r2]; [discriminate|]. destruct (x2 =? c_dot) eqn:X2; [|discriminate].
    destruct (read_number 10 3 false 255 r2) as [[c r3]|] eqn:E3; [|discriminate].
    destruct r3 as [|x3 r3]; [discriminate|]. destruct (x3 =? c_dot) eqn:X3; [|discriminate].
    destruct (read_number 10 3 false 255 r3) as [[d r4]|] eqn:E4; [|discriminate].
    intros H. inv H. apply N.eqb_eq in X1, X2, X3. subst.
    apply read_octet_iff in E1, E2, E3, E4.
    destruct E1 as [p1 [-> [_ O1]]]. destruct E2 as [p2 [-> [_ O2]]].
    destruct E3 as [p3 [-> [_ O3]]]. destruct E4 as [p4 [-> [T O4]]].
    exists (p1 ++ [46] ++ p2 ++ [46] ++ p3 ++ [46] ++ p4), a, b, c, d. split.
    { rewrite <- !app_assoc. reflexivity. }
    split; [exact T|]. split; [|reflexivity]. exists p1, p2, p3, p4. auto.
  - intros [p [a [b [c [d [-> [T [[p1 [p2 [p3 [p4 [-> [O1 [O2 [O3 O4]]]]]]]] ->]]]]]]]].
    cbn [read_octets read_separator]. rewrite <- !app_assoc.
    assert (K : forall q v r, octet_text q v -> stops 10 r -> read_number 10 3 false 255 (q ++ r) = Some (v, r))
      by (intros; apply read_octet_iff; eauto).
    rewrite (K p1 a) by (auto; reflexivity). cbn [app]. change (46 =? c_dot) with true. cbv iota.
    rewrite (K p2 b) by (auto; reflexivity). cbn [app]. change (46 =? c_dot) with true. cbv iota.
    rewrite (K p3 c) by (auto; reflexivity). cbn [app]. change (46 =? c_dot) with true. cbv iota.
    rewrite (K p4 d) by auto. reflexivity.
Qed.
Lemma quad_value : forall a b c d, of_be 256 [a; b; c; d] = ((a * 256 + b) * 256 + c) * 256 + d.
Proof. intros. unfold of_be. cbn [fold_left]. lia. Qed.

Lemma digits_chars : forall b s n, b <= 16 -> digits_are b s n -> forallb hex_char s = true.
Proof.
  intros b s n B. induction 1 as [|s n c d H IH Hd Hb]; [reflexivity|].
  rewrite forallb_app, IH. cbn [forallb andb]. rewrite andb_true_r. unfold hex_char.
  unfold digit_is in Hd. lia.
Qed.
Lemma group_chars : forall s n, group_text s n -> forallb hex_char s = true.
Proof. intros s n [D _]. eapply digits_chars; [|exact D]. lia. Qed.

(** ** Groups *)
(** What [read_groups] reads: groups, the first of them after a colon if [i] is not 0. *)
Definition reads_groups (i : nat) (quad : bool) (s : str) (l : list N) : Prop :=
  match i with
  | O => groups_or_none quad s l
  | S _ => s = [] /\ l = [] \/ exists t, s = 58 :: t /\ groups_text quad t l
  end.
Lemma sep_some : forall {A} sep i (f : reader A) s x, read_separator sep i f s = Some x ->
  exists p t, s = p ++ t /\ f t = Some x /\ (p = match i with O => [] | S _ => [sep] end).
Proof.
  intros A sep [|i] f s x H; cbn [read_separator] in H.
  - exists [], s. auto.
  - destruct s as [|y s]; [discriminate|]. destruct (y =? sep) eqn:E; [|discriminate].
    apply N.eqb_eq in E. subst. exists [sep], s. auto.
Qed.
Lemma groups_nonempty : forall q s l, groups_text q s l -> l <> [].
Proof. induction 1; discriminate. Qed.
Lemma weaken_quad : forall s l, groups_text false s l -> groups_text true s l.
Proof.
  induction 1 as [s g H|s a b c d H|s g t l H K IH];
    [apply groups_one; exact H|discriminate|apply groups_more; auto].
Qed.
Lemma read_groups_inv : forall left i s l b rest, read_groups left i s = (l, b, rest) ->
  exists p, s = p ++ rest /\ reads_groups i true p l /\ (b = false -> reads_groups i false p l).
Proof.
  induction left as [|left IH]; intros i s l b rest H; cbn [read_groups] in H.
  { inv H. exists []. split; [reflexivity|]. destruct i; split; intros; left; auto. }
  destruct (if Nat.ltb 1 (S left) then read_separator c_colon i read_ipv4 s else None) as [[o r]|] eqn:E.
  - destruct (Nat.ltb 1 (S left)); [|discriminate]. apply sep_some in E. destruct E as [p [t [-> [E P]]]].
    apply read_quad_iff in E. destruct E as [q [a1 [b1 [c1 [d1 [-> [T [Q ->]]]]]]]]. inv H.
    eexists. split; [apply app_assoc|]. split; [|discriminate]. unfold reads_groups.
    destruct i; right; [|exists q; split; [reflexivity|]]; apply groups_quad; auto.
  - destruct (read_separator c_colon i (read_number 16 4 true 65535) s) as [[g r]|] eqn:E2.
    + apply sep_some in E2. destruct E2 as [p [t [-> [E2 P]]]].
      apply read_group_iff in E2. destruct E2 as [q [-> [T G]]].
      destruct (read_groups left (S i) r) as [[gs b'] r'] eqn:E3. inv H.
      apply IH in E3. destruct E3 as [w [-> [R1 R2]]].
      exists (match i with O => [] | S _ => [c_colon] end ++ q ++ w). split.
      { rewrite <- !app_assoc. reflexivity. }
      assert (K : forall quad, reads_groups (S i) quad w gs ->
        reads_groups i quad (match i with O => [] | S _ => [c_colon] end ++ q ++ w) (g :: gs)).
      { intros quad R. cbn [reads_groups] in R.
        assert (M : groups_text quad (q ++ w) (g :: gs)).
        { destruct R as [[-> ->]|[t [-> R]]].
          - rewrite app_nil_r. apply groups_one; exact G.
          - apply (groups_more quad q g t gs); auto. }
        destruct i; cbn [reads_groups app]; right; [exact M|]. exists (q ++ w). auto. }
      split; [apply K; exact R1|]. intros B. apply K. auto.
    + inv H. exists []. split; [reflexivity|]. destruct i; split; intros; left; auto.
Qed.

Lemma none_if : forall (b : bool) (x : option (list N * str)), x = None -> (if b then x else None) = None.
Proof. intros [|] x H; auto. Qed.
Lemma quad_len : forall s a b c d, quad_text s a b c d -> s <> [].
Proof.
  intros s a b c d [p [q [r [t [-> _]]]]] H. destruct p; discriminate H.
Qed.
Lemma read_groups_text : forall quad p l, groups_text quad p l -> forall left i rest,
  (List.length l <= left)%nat -> groups_end rest ->
  exists b, read_groups left i ((match i with O => [] | S _ => [58] end) ++ p ++ rest) = (l, b, rest) /\
    (quad = false -> b = false).
Proof.
  intros quad p l H. induction H as [s g G|s a b c d Hq Q|s g t l G K IH]; intros left i rest L T.
  - cbn [List.length] in L. destruct left as [|left]; [lia|]. exists false. split; [|auto].
    cbn [read_groups].
    assert (K : forall A (f : reader A), read_separator c_colon i f
       ((match i with O => [] | S _ => [58] end) ++ s ++ rest) = f (s ++ rest))
      by (intros; destruct i; reflexivity).
    rewrite !K. rewrite none_if by (apply read_ipv4_none; [eapply group_chars; eauto|apply groups_end_colon; auto]).
    assert (R : read_number 16 4 true 65535 (s ++ rest) = Some (g, rest)).
    { apply read_group_iff. exists s. split; auto. split; [|exact G]. apply colon_stops, groups_end_colon. exact T. }
    rewrite R. rewrite read_groups_stop by auto. reflexivity.
  - cbn [List.length] in L. destruct left as [|[|left]]; [lia..|]. exists true. split; [|congruence].
    remember (S left) as m eqn:M. cbn [read_groups]. replace (Nat.ltb 1 (S m)) with true by (subst m; reflexivity).
    assert (K : forall A (f : reader A), read_separator c_colon i f
       ((match i with O => [] | S _ => [58] end) ++ s ++ rest) = f (s ++ rest))
      by (intros; destruct i; reflexivity).
    rewrite K. assert (R : read_ipv4 (s ++ rest) = Some ([a; b; c; d], rest)).
    { apply read_quad_iff. exists s, a, b, c, d. repeat split; auto. apply colon_stops, groups_end_colon. exact T. }
    rewrite R. reflexivity.
  - cbn [List.length] in L. destruct left as [|left]; [lia|].
    destruct (IH left (S i) rest ltac:(lia) T) as [b [R B]]. exists b. split; [|exact B].
    cbn [read_groups].
    assert (W : forall A (f : reader A), read_separator c_colon i f
       ((match i with O => [] | S _ => [58] end) ++ (s ++ [58] ++ t) ++ rest) = f (s ++ [58] ++ t ++ rest))
      by (intros; rewrite <- !app_assoc; destruct i; reflexivity).
    rewrite !W. rewrite none_if by (apply read_ipv4_none; [eapply group_chars; eauto|reflexivity]).
    assert (R2 : read_number 16 4 true 65535 (s ++ [58] ++ t ++ rest) = Some (g, [58] ++ t ++ rest)).
    { apply read_group_iff. exists s. split; auto. split; [reflexivity|exact G]. }
    rewrite R2. cbv iota in R. rewrite R. reflexivity.
Qed.
Lemma read_groups_or_none : forall quad p l left rest, groups_or_none quad p l ->
  (List.length l <= left)%nat -> groups_end rest ->
  exists b, read_groups left 0 (p ++ rest) = (l, b, rest) /\ (quad = false -> b = false).
Proof.
  intros quad p l left rest [[-> ->]|H] L T.
  - exists false. split; auto. apply read_groups_start_stop. exact T.
  - destruct (read_groups_text quad p l H left 0 rest L T) as [b K]. exists b. exact K.
Qed.

(** ** Whole addresses *)
Lemma read_ipv6_iff : forall s l, read_ipv6 s = Some (l, []) <-> ip6_groups s l.
Proof.
  intros s l. unfold read_ipv6. split.
  - destruct (read_groups 8 0 s) as [[head b] r] eqn:E. pose proof (read_groups_ok _ _ _ _ _ _ E) as [HL _].
    apply read_groups_inv in E. destruct E as [p [-> [R1 R2]]].
    destruct (Nat.eqb (List.length head) 8) eqn:E8.
    { intros H. inv H. apply Nat.eqb_eq in E8. left. rewrite app_nil_r. split; [|exact E8].
      cbn [reads_groups] in R1. destruct R1 as [[-> ->]|R1]; [discriminate E8|exact R1]. }
    apply Nat.eqb_neq in E8. destruct b; [discriminate|].
    destruct r as [|x [|y r]]; try discriminate.
    destruct ((x =? c_colon) && (y =? c_colon)) eqn:EX; [|discriminate].
    apply andb_true_iff in EX. destruct EX as [X Y]. apply N.eqb_eq in X, Y. subst x y.
    destruct (read_groups (8 - (List.length head + 1)) 0 r) as [[tail b'] r'] eqn:E3.
    pose proof (read_groups_ok _ _ _ _ _ _ E3) as [HT _].
    apply read_groups_inv in E3. destruct E3 as [q [-> [R3 _]]].
    intros H. assert (r' = [] /\ l = head ++ repeat 0 (8 - List.length head - List.length tail) ++ tail) as [-> ->].
    { split; [exact (f_equal (fun o => match o with Some (_, r) => r | None => r' end) H)|].
      symmetry. exact (f_equal (fun o => match o with Some (l, _) => l | None => [] end) H). }
    right. exists p, q, head, tail, (8 - List.length head - List.length tail)%nat.
    split; [rewrite app_nil_r; reflexivity|]. split; [exact (R2 eq_refl)|]. split; [exact R3|].
    split; [lia|]. split; [reflexivity|]. rewrite !app_length, repeat_length. lia.
  - intros [[G L]|[p [q [h [t [k [-> [Hh [Ht [K [-> L]]]]]]]]]]].
    + destruct (read_groups_text true s l G 8 0 [] ltac:(lia) I) as [b [R _]]. cbn [app] in R.
      rewrite app_nil_r in R. rewrite R, L. reflexivity.
    + rewrite !app_length, repeat_length in L.
      destruct (read_groups_or_none false p h 8 ([58; 58] ++ q) Hh ltac:(lia) (conj eq_refl eq_refl)) as [b [R B]].
      rewrite R, (B eq_refl).
      replace (Nat.eqb (List.length h) 8) with false by (symmetry; apply Nat.eqb_neq; lia).
      cbn [app]. change (58 =? c_colon) with true. cbn [andb].
      destruct (read_groups_or_none true q t (8 - (List.length h + 1)) [] Ht ltac:(lia) I) as [b' [R' _]].
      rewrite app_nil_r in R'. rewrite R'.
      replace (8 - List.length h - List.length t)%nat with k by lia. reflexivity.
Qed.
Lemma groups_value_pos : forall l, groups_value l = pos_value 65536 l.
Proof. induction l as [|g l IH]; cbn [groups_value pos_value]; [reflexivity|]. rewrite IH. reflexivity. Qed.

(** An IPv6 text does not begin with a quad. *)
Lemma groups_start : forall quad s l, groups_text quad s l -> forall rest, groups_end rest ->
  (exists g t, s ++ rest = g ++ t /\ forallb hex_char g = true /\ colon_next t) \/ List.length l = 2%nat /\ quad = true.
Proof.
  intros quad s l H rest T. destruct H as [s g G|s a b c d Hq Q|s g t l G K].
  - left. exists s, rest. split; auto. split; [eapply group_chars; eauto|apply groups_end_colon; auto].
  - right. auto.
  - left. exists s, ([58] ++ t ++ rest). split; [rewrite <- !app_assoc; reflexivity|].
    split; [eapply group_chars; eauto|reflexivity].
Qed.
Lemma ip6_not_quad : forall s l, ip6_groups s l -> read_ipv4 s = None.
Proof.
  intros s l H.
  assert (K : exists g t, s = g ++ t /\ forallb hex_char g = true /\ colon_next t).
  { destruct H as [[G L]|[p [q [h [t [k [-> [Hh _]]]]]]]].
    - destruct (groups_start true s l G [] I) as [K|[K _]]; [|lia]. rewrite app_nil_r in K. exact K.
    - destruct Hh as [[-> ->]|G].
      + exists [], ([58; 58] ++ q). repeat split.
      + destruct (groups_start false p h G ([58; 58] ++ q) (conj eq_refl eq_refl)) as [K|[_ K]]; [exact K|discriminate]. }
  destruct K as [g [t [-> [A B]]]]. apply read_ipv4_none; auto.
Qed.
Lemma ip6_texts : forall s n, parse_ip s = Some (V6 n) <-> ip6_text s n.
Proof.
  intros s n. unfold parse_ip, ip6_text. split.
  - destruct (read_ipv4 s) as [[o r]|]; [destruct (is_empty r); discriminate|].
    destruct (read_ipv6 s) as [[l r]|] eqn:E; [|discriminate]. destruct r; [|discriminate]. cbn [is_empty].
    intros H. injection H as <-. apply read_ipv6_iff in E. exists l. split; [exact E|].
    rewrite of_be_value, groups_value_pos. reflexivity.
  - intros [l [G ->]]. rewrite (ip6_not_quad s l G). apply read_ipv6_iff in G. rewrite G. cbn [is_empty].
    rewrite of_be_value, groups_value_pos. reflexivity.
Qed.
Lemma ip4_texts : forall s n, parse_ip s = Some (V4 n) <-> ip4_text s n.
Proof.
  intros s n. unfold parse_ip, ip4_text. split.
  - destruct (read_ipv4 s) as [[o r]|] eqn:E.
    + destruct r; [|discriminate]. cbn [is_empty]. apply read_quad_iff in E.
      destruct E as [p [a [b [c [d [-> [T [Q ->]]]]]]]]. intros H. injection H as <-.
      exists a, b, c, d. rewrite app_nil_r. split; [exact Q|apply quad_value].
    + destruct (read_ipv6 s) as [[l r]|]; [|discriminate]. destruct (is_empty r); discriminate.
  - intros [a [b [c [d [Q ->]]]]].
    assert (R : read_ipv4 s = Some ([a; b; c; d], [])).
    { apply read_quad_iff. exists s, a, b, c, d. rewrite app_nil_r. repeat split; auto. }
    rewrite R. cbn [is_empty]. rewrite quad_value. reflexivity.
Qed.
Lemma ip_texts : forall s a, parse_ip s = Some a <-> ip_text s a.
Proof. intros s [n|n]; [apply ip4_texts|apply ip6_texts]. Qed.

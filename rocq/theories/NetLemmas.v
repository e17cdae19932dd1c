(** * Lemmas about Net.v (proofs only) *)
From Coq Require Import List NArith ZArith Bool Ascii String Lia.
From Coq Require Import ZifyBool ZifyNat ZifyN.
From Verif Require Import Str Num Net StrLemmas NumLemmas.
Import ListNotations.
Open Scope N_scope.
Open Scope list_scope.

(** ** Digits in a base *)
Lemma of_be_acc : forall b l acc,
  fold_left (fun acc d => acc * b + d) l acc =
  acc * b ^ N.of_nat (List.length l) + pos_value b l.
Proof.
  intros b l. induction l as [|d l IH]; intros acc; cbn [fold_left pos_value List.length].
  - rewrite N.pow_0_r. lia.
  - rewrite IH, Nat2N.inj_succ, N.pow_succ_r'. ring.
Qed.
Lemma of_be_value : forall b l, of_be b l = pos_value b l.
Proof. intros. unfold of_be. rewrite of_be_acc. lia. Qed.
Lemma be_digits_length : forall k b n, List.length (be_digits k b n) = k.
Proof.
  induction k as [|k IH]; intros; cbn [be_digits]; auto. rewrite app_length, IH. simpl. lia.
Qed.
Lemma be_digits_lt : forall k b n, b <> 0 -> Forall (fun d => d < b) (be_digits k b n).
Proof.
  induction k as [|k IH]; intros b n Hb; cbn [be_digits]; [constructor|].
  apply Forall_app. split; auto. constructor; [|constructor]. apply N.mod_lt. auto.
Qed.
Lemma be_digits_value : forall k b n, b <> 0 -> n < b ^ N.of_nat k ->
  pos_value b (be_digits k b n) = n.
Proof.
  induction k as [|k IH]; intros b n Hb Hn; cbn [be_digits].
  - change (N.of_nat 0) with 0 in Hn. rewrite N.pow_0_r in Hn. simpl. lia.
  - rewrite Nat2N.inj_succ, N.pow_succ_r' in Hn.
    rewrite pos_value_app, IH; auto; [|apply N.div_lt_upper_bound; auto].
    cbn [pos_value List.length]. change (N.of_nat 0) with 0. change (N.of_nat 1) with 1.
    rewrite N.pow_0_r, N.pow_1_r. pose proof (N.div_mod n b Hb). lia.
Qed.
Lemma be_digits_of : forall k b l, b <> 0 -> List.length l = k -> Forall (fun d => d < b) l ->
  be_digits k b (pos_value b l) = l.
Proof.
  intros k b l Hb. revert k. induction l as [|x l IH] using rev_ind; intros k Hl H.
  - subst k. reflexivity.
  - rewrite app_length in Hl. simpl in Hl. destruct k as [|k]; [lia|].
    apply Forall_app in H. destruct H as [H1 H2]. inv H2.
    rewrite pos_value_app. cbn [be_digits pos_value List.length].
    change (N.of_nat 0) with 0. change (N.of_nat 1) with 1. rewrite N.pow_0_r, N.pow_1_r.
    replace (pos_value b l * b + (x * 1 + 0)) with (x + pos_value b l * b) by lia.
    rewrite N.div_add, N.mod_add, N.div_small, N.mod_small by auto.
    rewrite N.add_0_l, IH; auto. lia.
Qed.

(** ** Reading numbers *)
Definition stops (radix : N) (s : str) : Prop :=
  match s with [] => True | c :: _ => to_digit radix c = None end.
Lemma read_digits_app : forall radix s ds left acc rest,
  Forall2 (fun c d => to_digit radix c = Some d) s ds -> (List.length ds <= left)%nat ->
  stops radix rest ->
  read_digits radix left acc (s ++ rest) =
  Some (acc * radix ^ N.of_nat (List.length ds) + pos_value radix ds, rest).
Proof.
  intros radix s ds left acc rest H. revert left acc.
  induction H as [|c d s ds Hc H IH]; intros left acc Hl Hr; cbn [app List.length].
  - change (N.of_nat 0) with 0. rewrite N.pow_0_r. cbn [pos_value].
    replace (acc * 1 + 0) with acc by lia.
    destruct rest as [|c rest]; destruct left as [|left]; cbn [read_digits]; auto;
      cbn [stops] in Hr; rewrite Hr; reflexivity.
  - cbn [List.length] in Hl. destruct left as [|left]; [lia|].
    cbn [read_digits]. rewrite Hc, IH by (auto; lia). f_equal. f_equal.
    cbn [pos_value]. rewrite Nat2N.inj_succ, N.pow_succ_r'. ring.
Qed.
(** What is left is a suffix and the rest was digits. *)
Lemma read_digits_inv : forall radix s left acc v rest,
  read_digits radix left acc s = Some (v, rest) ->
  exists p, s = p ++ rest /\ Forall (fun c => to_digit radix c <> None) p.
Proof.
  intros radix s. induction s as [|c s IH]; intros left acc v rest H;
    destruct left as [|left]; cbn [read_digits] in H.
  - inv H. exists []. auto.
  - inv H. exists []. auto.
  - destruct (to_digit radix c) as [d|] eqn:Hd; [discriminate|]. inv H. exists []. auto.
  - destruct (to_digit radix c) as [d|] eqn:Hd.
    + apply IH in H. destruct H as [p [-> H]].
      exists (c :: p). split; auto. constructor; auto. congruence.
    + inv H. exists []. auto.
Qed.
Lemma read_number_inv : forall radix k z lim s v rest,
  read_number radix k z lim s = Some (v, rest) ->
  exists p, s = p ++ rest /\ Forall (fun c => to_digit radix c <> None) p.
Proof.
  intros radix k z lim s v rest H. unfold read_number in H.
  destruct (read_digits radix k 0 s) as [[v' r]|] eqn:Hr; [|discriminate].
  destruct (Nat.eqb _ 0); [discriminate|]. destruct (_ && _ && _); [discriminate|].
  destruct (v' <=? lim); [|discriminate]. inv H. eapply read_digits_inv; eauto.
Qed.
Lemma read_number_none : forall radix k z lim s, stops radix s -> read_number radix k z lim s = None.
Proof.
  intros radix k z lim s H. unfold read_number.
  destruct s as [|c s]; destruct k as [|k]; cbn [read_digits]; try reflexivity;
    cbn [stops] in H; rewrite H; rewrite Nat.sub_diag; reflexivity.
Qed.
Lemma Forall2_map_digit : forall digit radix ds,
  (forall d, d < radix -> to_digit radix (digit d) = Some d) ->
  Forall (fun d => d < radix) ds ->
  Forall2 (fun c d => to_digit radix c = Some d) (map digit ds) ds.
Proof. intros digit radix ds Hd H. induction H; simpl; constructor; auto. Qed.
Lemma read_number_show : forall digit radix k z lim n rest, 2 <= radix ->
  (forall d, d < radix -> to_digit radix (digit d) = Some d) ->
  (forall d, d < radix -> digit d = 48 -> d = 0) ->
  (1 <= k)%nat -> n < radix ^ N.of_nat k -> n <= lim -> stops radix rest ->
  read_number radix k z lim (show_radix digit radix n ++ rest) = Some (n, rest).
Proof.
  intros digit radix k z lim n rest Hr Hd H0 Hk Hn Hl Hs.
  pose proof (show_radix_length digit radix n k Hr Hk Hn) as HL.
  destruct (show_radix_spec digit radix n Hr) as [ds [H1 [H2 [H3 H4]]]].
  rewrite H1 in *. rewrite map_length in HL. unfold read_number.
  rewrite (read_digits_app radix (map digit ds) ds k 0 rest); auto;
    [|apply Forall2_map_digit; auto].
  rewrite H3. replace (0 * radix ^ N.of_nat (List.length ds) + n) with n by lia.
  rewrite app_length, map_length.
  replace (List.length ds + List.length rest - List.length rest)%nat with (List.length ds) by lia.
  destruct H4 as [H4 H5]. destruct ds as [|d ds]; [congruence|].
  cbn [List.length Nat.eqb map app].
  assert (HZ : negb z && starts_with_char 48 (digit d :: map digit ds ++ rest) &&
               Nat.ltb 1 (S (List.length ds)) = false).
  { cbn [starts_with_char]. destruct (digit d =? 48) eqn:E; [|rewrite andb_false_r; reflexivity].
    apply N.eqb_eq in E. inv H2. apply H0 in E; auto. subst d.
    destruct H5 as [H5|[d' [ds' [H5 H6]]]].
    - simpl in H5. assert (List.length ds = 0%nat) as -> by lia.
      rewrite andb_false_r. reflexivity.
    - inv H5. lia. }
  rewrite HZ. replace (n <=? lim) with true by lia. reflexivity.
Qed.
Lemma digit_lower_zero : forall d, digit_lower d = 48 -> d = 0.
Proof. intros d. unfold digit_lower. destruct (d <? 10) eqn:H; lia. Qed.
Lemma read_dec : forall n rest, n <= 255 -> stops 10 rest ->
  read_number 10 3 false 255 (show_N n ++ rest) = Some (n, rest).
Proof.
  intros n rest Hn Hs. apply read_number_show; auto; try lia.
  - intros. apply to_digit_lower; lia.
  - intros. apply digit_lower_zero. auto.
Qed.
Lemma read_hex : forall n rest, n <= 65535 -> stops 16 rest ->
  read_number 16 4 true 65535 (show_hex n ++ rest) = Some (n, rest).
Proof.
  intros n rest Hn Hs. apply read_number_show; auto; try lia.
  - intros. apply to_digit_lower; lia.
  - intros. apply digit_lower_zero. auto.
Qed.

(** ** IPv4 *)
Lemma read_octets_show : forall l i rest, Forall (fun o => o <= 255) l -> l <> [] -> i <> 0%nat ->
  stops 10 rest ->
  read_octets (List.length l) i ((c_dot :: join [c_dot] (map show_N l)) ++ rest) = Some (l, rest).
Proof.
  intros l. induction l as [|o l IH]; intros i rest H Hne Hi Hs; [congruence|].
  inv H. cbn [List.length read_octets app read_separator].
  destruct i as [|i]; [congruence|]. cbn [read_separator]. rewrite N.eqb_refl.
  destruct l as [|o' l].
  - cbn [map join]. rewrite read_dec by auto. reflexivity.
  - change (map show_N (o :: o' :: l)) with (show_N o :: map show_N (o' :: l)).
    rewrite join_cons by discriminate. rewrite <- !app_assoc.
    rewrite read_dec by (auto; reflexivity).
    change ([c_dot] ++ join [c_dot] (map show_N (o' :: l)) ++ rest)
      with ((c_dot :: join [c_dot] (map show_N (o' :: l))) ++ rest).
    rewrite IH; auto. discriminate.
Qed.
Lemma read_ipv4_eq : forall s, read_ipv4 s =
  match read_number 10 3 false 255 s with
  | Some (o, rest) => match read_octets 3 1 rest with
                      | Some (os, rest') => Some (o :: os, rest') | None => None end
  | None => None end.
Proof. reflexivity. Qed.
Lemma read_ipv4_octets : forall a b c d rest, a <= 255 -> b <= 255 -> c <= 255 -> d <= 255 ->
  stops 10 rest ->
  read_ipv4 (join [c_dot] (map show_N [a; b; c; d]) ++ rest) = Some ([a; b; c; d], rest).
Proof.
  intros. rewrite read_ipv4_eq.
  change (map show_N [a; b; c; d]) with (show_N a :: map show_N [b; c; d]).
  rewrite join_cons by discriminate. rewrite <- !app_assoc.
  rewrite read_dec by (auto; reflexivity).
  change ([c_dot] ++ join [c_dot] (map show_N [b; c; d]) ++ rest)
    with ((c_dot :: join [c_dot] (map show_N [b; c; d])) ++ rest).
  pose proof (read_octets_show [b; c; d] 1 rest) as K. cbn [List.length] in K.
  rewrite K; auto. discriminate.
Qed.
Lemma octets4_four : forall n, exists a b c d,
  octets4 n = [a; b; c; d] /\ a <= 255 /\ b <= 255 /\ c <= 255 /\ d <= 255.
Proof.
  intros n. unfold octets4. pose proof (be_digits_lt 4 256 n ltac:(lia)) as H.
  pose proof (be_digits_length 4 256 n) as HL.
  destruct (be_digits 4 256 n) as [|a [|b [|c [|d [|? ?]]]]]; try discriminate.
  inversion H as [|? ? Ha H1]; subst. inversion H1 as [|? ? Hb H2]; subst.
  inversion H2 as [|? ? Hc H3]; subst. inversion H3 as [|? ? Hd H4]; subst.
  exists a, b, c, d. repeat split; lia.
Qed.
Lemma read_show_ip4 : forall n rest, stops 10 rest ->
  read_ipv4 (show_ip4 n ++ rest) = Some (octets4 n, rest).
Proof.
  intros n rest Hs. unfold show_ip4. destruct (octets4_four n) as [a [b [c [d [E [? [? [? ?]]]]]]]].
  rewrite E. apply read_ipv4_octets; auto.
Qed.
Lemma octets4_value : forall n, n <= u32_max -> of_be 256 (octets4 n) = n.
Proof.
  intros n H. rewrite of_be_value. apply be_digits_value; [lia|].
  change (256 ^ N.of_nat 4) with 4294967296. unfold u32_max in H. lia.
Qed.
Lemma parse_show_ip4 : forall n, n <= u32_max -> parse_ip (show_ip4 n) = Some (V4 n).
Proof.
  intros n H. unfold parse_ip. rewrite <- (app_nil_r (show_ip4 n)).
  rewrite read_show_ip4 by exact I. cbn [is_empty]. rewrite octets4_value; auto.
Qed.

(** Text whose first chars are hex digits followed by ':' is not an IPv4 text. *)
Lemma hex_stop_char : forall c, hex_char c = true -> c <> c_dot.
Proof. intros c. unfold hex_char, c_dot. lia. Qed.
Definition colon_next (s : str) : Prop := match s with [] => True | c :: _ => c = c_colon end.
Lemma colon_stops : forall r s, colon_next s -> stops r s.
Proof. intros r [|c s] H; simpl in *; auto. subst c. reflexivity. Qed.
Lemma read_ipv4_none : forall g tail, forallb hex_char g = true -> colon_next tail ->
  read_ipv4 (g ++ tail) = None.
Proof.
  intros g tail Hg Ht. rewrite read_ipv4_eq.
  destruct (read_number 10 3 false 255 (g ++ tail)) as [[v rest]|] eqn:Hr; auto.
  apply read_number_inv in Hr. destruct Hr as [p [Hp HF]].
  assert (K : forall c s, rest = c :: s -> c <> c_dot).
  { intros c s ->.
    assert (In c g \/ exists s0 s1, tail = s0 ++ c :: s1 /\ g ++ s0 = p) as [K|[s0 [s1 [K1 K2]]]].
    { clear -Hp. revert p Hp. induction g as [|x g IH]; intros p Hp; cbn [app] in Hp.
      - right. exists p, s. auto.
      - destruct p as [|y p]; cbn [app] in Hp.
        + inv Hp. left. left. auto.
        + inv Hp. destruct (IH _ H1) as [K|[s0 [s1 [K1 K2]]]]; [left; right; auto|].
          right. exists s0, s1. subst. auto. }
    - apply hex_stop_char. rewrite forallb_forall in Hg. auto.
    - destruct s0 as [|x s0].
      + subst tail. simpl in Ht. subst c. discriminate.
      + subst tail. simpl in Ht. exfalso. subst x.
        assert (In c_colon p) by (subst p; apply in_app_iff; right; left; reflexivity).
        rewrite Forall_forall in HF. apply HF in H. apply H. reflexivity. }
  cbn [read_octets read_separator]. destruct rest as [|c s]; auto.
  destruct (c =? c_dot) eqn:E; auto. apply N.eqb_eq in E. exfalso. eapply K; eauto.
Qed.

(** ** IPv6 *)
Lemma fmt_subslice_cons : forall g gs, gs <> [] ->
  fmt_subslice (g :: gs) = show_hex g ++ c_colon :: fmt_subslice gs.
Proof.
  intros g gs H. unfold fmt_subslice. cbn [map]. rewrite join_cons; [reflexivity|].
  destruct gs; [congruence|discriminate].
Qed.
(** Groups, each preceded by ':', followed by nothing or by "::". *)
Definition groups_end (s : str) : Prop :=
  match s with [] => True | c :: d :: _ => c = c_colon /\ d = c_colon | _ => False end.
Lemma groups_end_colon : forall s, groups_end s -> colon_next s.
Proof. intros [|c [|d s]]; simpl; tauto. Qed.
Lemma read_groups_stop : forall left i s, groups_end s -> i <> 0%nat ->
  read_groups left i s = ([], false, s).
Proof.
  intros left i s H Hi. destruct left as [|left]; auto. cbn [read_groups].
  destruct i as [|i]; [congruence|]. cbn [read_separator].
  destruct s as [|c [|d s]]; [|destruct H|].
  - destruct (Nat.ltb 1 (S left)); reflexivity.
  - destruct H as [-> ->]. rewrite N.eqb_refl.
    pose proof (read_ipv4_none [] (c_colon :: s) eq_refl eq_refl) as K. cbn [app] in K. rewrite K.
    rewrite read_number_none by reflexivity. destruct (Nat.ltb 1 (S left)); reflexivity.
Qed.
Lemma read_groups_start_stop : forall left s, groups_end s -> read_groups left 0 s = ([], false, s).
Proof.
  intros left s H. destruct left as [|left]; auto. cbn [read_groups read_separator].
  pose proof (groups_end_colon s H) as Hc.
  pose proof (read_ipv4_none [] s eq_refl Hc) as K. cbn [app] in K. rewrite K.
  rewrite read_number_none by (apply colon_stops; auto).
  destruct (Nat.ltb 1 (S left)); reflexivity.
Qed.
Lemma read_groups_show : forall gs left i rest, Forall (fun g => g <= 65535) gs -> gs <> [] ->
  i <> 0%nat -> (List.length gs <= left)%nat -> groups_end rest ->
  read_groups left i (c_colon :: fmt_subslice gs ++ rest) = (gs, false, rest).
Proof.
  intros gs. induction gs as [|g gs IH]; intros left i rest H Hne Hi Hl He; [congruence|].
  inv H. destruct left as [|left]; [simpl in Hl; lia|]. cbn [List.length] in Hl.
  cbn [read_groups]. destruct i as [|i]; [congruence|]. cbn [read_separator].
  rewrite N.eqb_refl.
  destruct gs as [|g' gs].
  - unfold fmt_subslice. cbn [map join].
    rewrite read_ipv4_none by (auto using show_hex_chars, groups_end_colon).
    rewrite read_hex by (auto using colon_stops, groups_end_colon).
    replace (if Nat.ltb 1 (S left) then @None (list N * list N) else None)
      with (@None (list N * list N)) by (destruct (Nat.ltb 1 (S left)); reflexivity).
    rewrite read_groups_stop by auto. reflexivity.
  - rewrite fmt_subslice_cons by discriminate. rewrite <- app_assoc.
    rewrite read_ipv4_none by (auto using show_hex_chars; reflexivity).
    rewrite read_hex by (auto; reflexivity).
    replace (if Nat.ltb 1 (S left) then @None (list N * list N) else None)
      with (@None (list N * list N)) by (destruct (Nat.ltb 1 (S left)); reflexivity).
    change ((c_colon :: fmt_subslice (g' :: gs)) ++ rest)
      with (c_colon :: fmt_subslice (g' :: gs) ++ rest).
    rewrite IH; auto; try discriminate. lia.
Qed.
Lemma read_groups_show0 : forall gs left rest, Forall (fun g => g <= 65535) gs ->
  (List.length gs <= left)%nat -> groups_end rest ->
  read_groups left 0 (fmt_subslice gs ++ rest) = (gs, false, rest).
Proof.
  intros gs left rest H Hl He. destruct gs as [|g gs].
  - unfold fmt_subslice. cbn [map join app]. apply read_groups_start_stop. auto.
  - inv H. destruct left as [|left]; [simpl in Hl; lia|]. cbn [List.length] in Hl.
    cbn [read_groups read_separator]. destruct gs as [|g' gs].
    + unfold fmt_subslice. cbn [map join].
      rewrite read_ipv4_none by (auto using show_hex_chars, groups_end_colon).
      rewrite read_hex by (auto using colon_stops, groups_end_colon).
      replace (if Nat.ltb 1 (S left) then @None (list N * list N) else None)
        with (@None (list N * list N)) by (destruct (Nat.ltb 1 (S left)); reflexivity).
      rewrite read_groups_stop by auto. reflexivity.
    + rewrite fmt_subslice_cons by discriminate. rewrite <- app_assoc.
      rewrite read_ipv4_none by (auto using show_hex_chars; reflexivity).
      rewrite read_hex by (auto; reflexivity).
      replace (if Nat.ltb 1 (S left) then @None (list N * list N) else None)
        with (@None (list N * list N)) by (destruct (Nat.ltb 1 (S left)); reflexivity).
      change ((c_colon :: fmt_subslice (g' :: gs)) ++ rest)
        with (c_colon :: fmt_subslice (g' :: gs) ++ rest).
      rewrite read_groups_show; auto; try discriminate. lia.
Qed.

Lemma read_ipv6_full : forall gs, Forall (fun g => g <= 65535) gs -> List.length gs = 8%nat ->
  read_ipv6 (fmt_subslice gs) = Some (gs, []).
Proof.
  intros gs H HL. unfold read_ipv6. rewrite <- (app_nil_r (fmt_subslice gs)).
  rewrite read_groups_show0; auto; [|lia|exact I]. rewrite HL. reflexivity.
Qed.
Lemma read_ipv6_zeros : forall h t k, Forall (fun g => g <= 65535) h ->
  Forall (fun g => g <= 65535) t -> (List.length h + k + List.length t = 8)%nat -> (2 <= k)%nat ->
  read_ipv6 (fmt_subslice h ++ lit "::" ++ fmt_subslice t) = Some (h ++ repeat 0 k ++ t, []).
Proof.
  intros h t k Hh Ht HL Hk. unfold read_ipv6.
  rewrite read_groups_show0; auto; [|lia|simpl; auto].
  replace (Nat.eqb (List.length h) 8) with false by (symmetry; apply Nat.eqb_neq; lia).
  cbn [app]. change (58 =? c_colon) with true. cbn [andb].
  rewrite <- (app_nil_r (fmt_subslice t)).
  rewrite read_groups_show0; auto; [|lia|exact I].
  replace (8 - List.length h - List.length t)%nat with k by lia. reflexivity.
Qed.
Lemma read_ipv6_mapped : forall n,
  exists a b c d, octets4 n = [a; b; c; d] /\
  read_ipv6 (lit "::ffff:" ++ show_ip4 n) =
  Some ([0; 0; 0; 0; 0; 65535; a * 256 + b; c * 256 + d], []).
Proof.
  intros n. destruct (octets4_four n) as [a [b [c [d [E _]]]]]. exists a, b, c, d. split; auto.
  unfold read_ipv6. rewrite read_groups_start_stop by (simpl; auto).
  cbn [List.length Nat.eqb app]. change (58 =? c_colon) with true. cbn [andb].
  change (8 - (0 + 1))%nat with 7%nat.
  change (102 :: 102 :: 102 :: 102 :: 58 :: show_ip4 n)
    with (lit "ffff" ++ [c_colon] ++ show_ip4 n).
  assert (K : read_groups 7 0 (lit "ffff" ++ [c_colon] ++ show_ip4 n) =
              ([65535; a * 256 + b; c * 256 + d], true, [])).
  { remember 6%nat as six. cbn [read_groups]. subst six.
    cbn [read_separator]. change (Nat.ltb 1 7) with true. cbv iota.
    rewrite read_ipv4_none by (auto; reflexivity).
    change (lit "ffff") with (show_hex 65535).
    rewrite read_hex by (try lia; reflexivity).
    remember 5%nat as five. cbn [read_groups app]. subst five.
    cbn [read_separator]. change (Nat.ltb 1 6) with true. cbv iota.
    rewrite N.eqb_refl. rewrite <- (app_nil_r (show_ip4 n)).
    rewrite read_show_ip4 by exact I. rewrite E. reflexivity. }
  rewrite K. reflexivity.
Qed.

(** ** The zero run *)
Definition zeros (L : list N) (z : span) : Prop :=
  exists a b, L = a ++ repeat 0 (sp_len z) ++ b /\ List.length a = sp_start z.
Lemma zero_span_ok : forall segs i longest current pre L,
  L = pre ++ segs -> List.length pre = i ->
  (sp_len longest = 0%nat \/ zeros L longest) ->
  (sp_len current = 0%nat \/
   exists a, pre = a ++ repeat 0 (sp_len current) /\ List.length a = sp_start current) ->
  sp_len (zero_span i segs longest current) = 0%nat \/
  zeros L (zero_span i segs longest current).
Proof.
  induction segs as [|s segs IH]; intros i longest current pre L HL Hi Hlo Hcu;
    cbn [zero_span]; auto.
  destruct (s =? 0) eqn:Es.
  - apply N.eqb_eq in Es. subst s.
    set (cur := {| sp_start := if Nat.eqb (sp_len current) 0 then i else sp_start current;
                   sp_len := S (sp_len current) |}).
    assert (HC : exists a, pre ++ [0] = a ++ repeat 0 (sp_len cur) /\ List.length a = sp_start cur).
    { cbn [cur sp_len sp_start]. destruct (Nat.eqb (sp_len current) 0) eqn:E0.
      - apply Nat.eqb_eq in E0. rewrite E0. exists pre. auto.
      - apply Nat.eqb_neq in E0. destruct Hcu as [Hcu|[a [Ha1 Ha2]]]; [congruence|].
        exists a. split; auto. rewrite Ha1, <- app_assoc. f_equal.
        cbn [repeat]. symmetry. apply repeat_cons. }
    apply (IH _ _ _ (pre ++ [0])).
    + rewrite <- app_assoc. auto.
    + rewrite app_length. simpl. lia.
    + destruct (Nat.ltb (sp_len longest) (sp_len cur)) eqn:El; auto. right.
      destruct HC as [a [Ha1 Ha2]]. exists a, segs. split; auto.
      rewrite HL. change (0 :: segs) with ([0] ++ segs). rewrite app_assoc, Ha1, <- app_assoc. auto.
    + right. exact HC.
  - apply (IH _ _ _ (pre ++ [s])); auto.
    + rewrite <- app_assoc. auto.
    + rewrite app_length. simpl. lia.
Qed.

Definition show_ip6_plain (segs : list N) : str :=
  let z := zero_span 0 segs {| sp_start := 0; sp_len := 0 |} {| sp_start := 0; sp_len := 0 |} in
  if Nat.ltb 1 (sp_len z) then
    fmt_subslice (firstn (sp_start z) segs) ++ lit "::" ++
    fmt_subslice (skipn (sp_start z + sp_len z) segs)
  else fmt_subslice segs.
Lemma read_plain : forall segs, Forall (fun g => g <= 65535) segs -> List.length segs = 8%nat ->
  read_ipv6 (show_ip6_plain segs) = Some (segs, []).
Proof.
  intros segs H HL. unfold show_ip6_plain.
  set (z := zero_span 0 segs _ _).
  destruct (Nat.ltb 1 (sp_len z)) eqn:Ez; [|apply read_ipv6_full; auto].
  apply Nat.ltb_lt in Ez.
  destruct (zero_span_ok segs 0 {| sp_start := 0; sp_len := 0 |} {| sp_start := 0; sp_len := 0 |}
              [] segs eq_refl eq_refl (or_introl eq_refl) (or_introl eq_refl)) as [K|[a [b [K1 K2]]]];
    fold z in K || fold z in K1, K2; [lia|].
  assert (L1 : firstn (sp_start z) segs = a).
  { rewrite K1, <- K2. rewrite firstn_app, Nat.sub_diag, firstn_all. simpl. apply app_nil_r. }
  assert (L2 : skipn (sp_start z + sp_len z) segs = b).
  { rewrite K1, app_assoc. rewrite skipn_app.
    rewrite skipn_all2 by (rewrite app_length, repeat_length; lia).
    rewrite app_length, repeat_length.
    replace (sp_start z + sp_len z - (List.length a + sp_len z))%nat with 0%nat by lia.
    reflexivity. }
  rewrite L1, L2. assert (HF : Forall (fun g => g <= 65535) (a ++ repeat 0 (sp_len z) ++ b))
    by (rewrite <- K1; auto).
  apply Forall_app in HF. destruct HF as [Fa HF]. apply Forall_app in HF. destruct HF as [_ Fb].
  rewrite (read_ipv6_zeros a b (sp_len z)); auto.
  - rewrite <- K1. reflexivity.
  - assert (HL2 : List.length (a ++ repeat 0 (sp_len z) ++ b) = 8%nat) by (rewrite <- K1; auto).
    rewrite !app_length, repeat_length in HL2. lia.
Qed.

Lemma show_ip6_cases : forall n,
  (exists ab cd, segments6 n = [0; 0; 0; 0; 0; 65535; ab; cd] /\
     show_ip6 n = lit "::ffff:" ++ show_ip4 (ab * 65536 + cd)) \/
  show_ip6 n = show_ip6_plain (segments6 n).
Proof.
  intros n. unfold show_ip6, show_ip6_plain.
  pose proof (be_digits_length 8 65536 n) as HL. unfold segments6.
  set (segs := be_digits 8 65536 n) in *. clearbody segs.
  set (Z := zero_span 0 segs _ _). clearbody Z.
  destruct segs as [|s0 [|s1 [|s2 [|s3 [|s4 [|s5 [|ab [|cd [|? ?]]]]]]]]]; try discriminate HL.
  destruct s0; [|right; reflexivity]. destruct s1; [|right; reflexivity].
  destruct s2; [|right; reflexivity]. destruct s3; [|right; reflexivity].
  destruct s4; [|right; reflexivity].
  destruct (N.eq_dec s5 65535) as [->|Hne].
  - left. exists ab, cd. split; reflexivity.
  - right. destruct s5 as [|p]; [reflexivity|].
    do 15 (destruct p as [p|p|]; try reflexivity).
    destruct p as [p|p|]; try reflexivity. congruence.
Qed.

Lemma segments6_ok : forall n, Forall (fun g => g <= 65535) (segments6 n) /\
  List.length (segments6 n) = 8%nat.
Proof.
  intros n. split; [|apply be_digits_length].
  eapply Forall_impl; [|apply (be_digits_lt 8 65536 n); lia]. intros a Ha. simpl in Ha. lia.
Qed.
Lemma segments6_value : forall n, n <= u128_max -> of_be 65536 (segments6 n) = n.
Proof.
  intros n H. rewrite of_be_value. apply be_digits_value; [lia|].
  change (65536 ^ N.of_nat 8) with 340282366920938463463374607431768211456.
  unfold u128_max in H. lia.
Qed.
Lemma read_show_ip6 : forall n, read_ipv6 (show_ip6 n) = Some (segments6 n, []).
Proof.
  intros n. destruct (segments6_ok n) as [HF HL].
  destruct (show_ip6_cases n) as [[ab [cd [Hs ->]]]| ->]; [|apply read_plain; auto].
  destruct (read_ipv6_mapped (ab * 65536 + cd)) as [a [b [c [d [E ->]]]]]. rewrite Hs.
  rewrite Hs in HF. do 6 (inversion HF as [|? ? _ HF']; subst; clear HF; rename HF' into HF).
  inversion HF as [|? ? H1 HF']; subst. inversion HF' as [|? ? H2 _]; subst.
  assert (K : pos_value 256 [a; b; c; d] = ab * 65536 + cd).
  { rewrite <- E. apply be_digits_value; [lia|]. change (256 ^ N.of_nat 4) with 4294967296. lia. }
  pose proof (be_digits_lt 4 256 (ab * 65536 + cd) ltac:(lia)) as HB.
  change (be_digits 4 256 (ab * 65536 + cd)) with (octets4 (ab * 65536 + cd)) in HB. rewrite E in HB.
  inversion HB as [|? ? B1 HB1]; subst. inversion HB1 as [|? ? B2 HB2]; subst.
  inversion HB2 as [|? ? B3 HB3]; subst. inversion HB3 as [|? ? B4 _]; subst.
  cbn [pos_value List.length] in K.
  change (256 ^ N.of_nat 3) with 16777216 in K. change (256 ^ N.of_nat 2) with 65536 in K.
  change (256 ^ N.of_nat 1) with 256 in K. change (256 ^ N.of_nat 0) with 1 in K.
  assert (a * 256 + b = ab) by lia. assert (c * 256 + d = cd) by lia. subst. reflexivity.
Qed.
(** IPv6 text starts with a (possibly empty) hex group followed by ':'. *)
Lemma subslice_start : forall h rest, (h = [] -> colon_next rest) ->
  (List.length h = 1%nat -> colon_next rest) ->
  exists g t, fmt_subslice h ++ rest = g ++ t /\ forallb hex_char g = true /\ colon_next t.
Proof.
  intros h rest H0 H1. destruct h as [|x h].
  - exists [], rest. auto.
  - destruct h as [|y h].
    + exists (show_hex x), rest. split; [reflexivity|]. auto using show_hex_chars.
    + rewrite fmt_subslice_cons by discriminate. rewrite <- app_assoc.
      eexists _, _. split; [reflexivity|]. split; [apply show_hex_chars|reflexivity].
Qed.
Lemma show_ip6_start : forall n,
  exists g t, show_ip6 n = g ++ t /\ forallb hex_char g = true /\ colon_next t.
Proof.
  intros n. destruct (segments6_ok n) as [_ HL].
  destruct (show_ip6_cases n) as [[ab [cd [_ ->]]]| ->].
  - exists [], (lit "::ffff:" ++ show_ip4 (ab * 65536 + cd)). repeat split.
  - unfold show_ip6_plain. set (z := zero_span _ _ _ _). destruct (Nat.ltb 1 (sp_len z)).
    + apply subslice_start; intros; reflexivity.
    + rewrite <- (app_nil_r (fmt_subslice (segments6 n))).
      apply subslice_start; intros; exact I.
Qed.
Lemma parse_show_ip6 : forall n, n <= u128_max -> parse_ip (show_ip6 n) = Some (V6 n).
Proof.
  intros n H. unfold parse_ip.
  assert (K : read_ipv4 (show_ip6 n) = None).
  { destruct (show_ip6_start n) as [g [t [-> [Hg Ht]]]]. apply read_ipv4_none; auto. }
  rewrite K, read_show_ip6. cbn [is_empty]. rewrite segments6_value; auto.
Qed.

Definition ip_ok (a : ip) : Prop :=
  match a with V4 n => n <= u32_max | V6 n => n <= u128_max end.
Lemma parse_show_ip : forall a, ip_ok a -> parse_ip (show_ip a) = Some a.
Proof. intros [n|n] H; [apply parse_show_ip4|apply parse_show_ip6]; auto. Qed.
Lemma show_ip_inj : forall a b, ip_ok a -> ip_ok b -> show_ip a = show_ip b -> a = b.
Proof.
  intros a b Ha Hb H. apply parse_show_ip in Ha, Hb. rewrite H in Ha. congruence.
Qed.

(** ** Results are in range *)
Lemma read_number_le : forall radix k z lim s v rest,
  read_number radix k z lim s = Some (v, rest) -> v <= lim.
Proof.
  intros radix k z lim s v rest H. unfold read_number in H.
  destruct (read_digits radix k 0 s) as [[v' r]|]; [|discriminate].
  destruct (Nat.eqb _ 0); [discriminate|]. destruct (_ && _ && _); [discriminate|].
  destruct (v' <=? lim) eqn:E; [|discriminate]. inv H. lia.
Qed.
Lemma read_separator_le : forall sep i radix k z lim s v rest,
  read_separator sep i (read_number radix k z lim) s = Some (v, rest) -> v <= lim.
Proof.
  intros sep i radix k z lim s v rest H. unfold read_separator in H. destruct i.
  - eapply read_number_le; eauto.
  - destruct s as [|x s]; [discriminate|]. destruct (x =? sep); [|discriminate].
    eapply read_number_le; eauto.
Qed.
Lemma read_octets_ok : forall left i s o rest, read_octets left i s = Some (o, rest) ->
  List.length o = left /\ Forall (fun d => d < 256) o.
Proof.
  induction left as [|left IH]; intros i s o rest H; cbn [read_octets] in H.
  - inv H. auto.
  - destruct (read_separator c_dot i (read_number 10 3 false 255) s) as [[v r]|] eqn:E;
      [|discriminate].
    destruct (read_octets left (S i) r) as [[os r']|] eqn:E2; [|discriminate]. inv H.
    apply read_separator_le in E. destruct (IH _ _ _ _ E2). split; [simpl; congruence|].
    constructor; auto. lia.
Qed.
Lemma read_groups_ok : forall left i s g b rest, read_groups left i s = (g, b, rest) ->
  (List.length g <= left)%nat /\ Forall (fun d => d < 65536) g.
Proof.
  induction left as [|left IH]; intros i s g b rest H; cbn [read_groups] in H.
  - inv H. auto.
  - destruct (if Nat.ltb 1 (S left) then read_separator c_colon i read_ipv4 s else None)
      as [[o r]|] eqn:E.
    + destruct (Nat.ltb 1 (S left)) eqn:EL; [|discriminate]. apply Nat.ltb_lt in EL.
      assert (K : exists s', read_ipv4 s' = Some (o, r)).
      { unfold read_separator in E. destruct i; [eauto|]. destruct s as [|x s]; [discriminate|].
        destruct (x =? c_colon); [eauto|discriminate]. }
      destruct K as [s' K]. apply read_octets_ok in K. destruct K as [K1 K2].
      destruct o as [|a [|a1 [|a2 [|a3 [|? ?]]]]]; try discriminate. inv H.
      inversion K2 as [|? ? B1 K3]; subst. inversion K3 as [|? ? B2 K4]; subst.
      inversion K4 as [|? ? B3 K5]; subst. inversion K5 as [|? ? B4 K6]; subst.
      split; [simpl; lia|]. repeat constructor; lia.
    + destruct (read_separator c_colon i (read_number 16 4 true 65535) s) as [[v r]|] eqn:E2.
      * destruct (read_groups left (S i) r) as [[gs b'] r'] eqn:E3. inv H.
        apply read_separator_le in E2. destruct (IH _ _ _ _ _ E3). split; [simpl; lia|].
        constructor; auto. lia.
      * inv H. simpl. split; [lia|constructor].
Qed.
Lemma read_ipv6_ok : forall s g rest, read_ipv6 s = Some (g, rest) ->
  List.length g = 8%nat /\ Forall (fun d => d < 65536) g.
Proof.
  intros s g rest H. unfold read_ipv6 in H.
  destruct (read_groups 8 0 s) as [[head b] r] eqn:E. apply read_groups_ok in E.
  destruct E as [E1 E2]. destruct (Nat.eqb (List.length head) 8) eqn:E8.
  - inv H. apply Nat.eqb_eq in E8. auto.
  - apply Nat.eqb_neq in E8. destruct b; [discriminate|].
    destruct r as [|x [|y r]]; try discriminate.
    destruct ((x =? c_colon) && (y =? c_colon)); [|discriminate].
    destruct (read_groups (8 - (List.length head + 1)) 0 r) as [[tail b'] r'] eqn:E3.
    apply (f_equal (fun o => match o with Some (l, _) => l | None => [] end)) in H. cbv beta iota in H.
    subst g. apply read_groups_ok in E3. destruct E3 as [E3 E4]. split.
    + rewrite !app_length, repeat_length. lia.
    + apply Forall_app. split; auto. apply Forall_app. split; auto.
      apply Forall_forall. intros u Hu. apply repeat_spec in Hu. subst. lia.
Qed.
Lemma parse_ip_ok : forall s a, parse_ip s = Some a -> ip_ok a.
Proof.
  intros s a H. unfold parse_ip in H. destruct (read_ipv4 s) as [[o r]|] eqn:E.
  - destruct (is_empty r); [|discriminate]. inv H. apply read_octets_ok in E.
    destruct E as [E1 E2]. simpl. rewrite of_be_value.
    pose proof (pos_value_bound 256 o ltac:(lia) E2) as K. rewrite E1 in K.
    change (256 ^ N.of_nat 4) with 4294967296 in K. unfold u32_max. lia.
  - destruct (read_ipv6 s) as [[g r]|] eqn:E6; [|discriminate].
    destruct (is_empty r); [|discriminate]. inv H. apply read_ipv6_ok in E6.
    destruct E6 as [E1 E2]. simpl. rewrite of_be_value.
    pose proof (pos_value_bound 65536 g ltac:(lia) E2) as K. rewrite E1 in K.
    change (65536 ^ N.of_nat 8) with 340282366920938463463374607431768211456 in K.
    unfold u128_max. lia.
Qed.

(** ** Characters *)
Definition ip_char (c : char) : bool := hex_char c || (c =? c_dot) || (c =? c_colon).
Lemma join_chars : forall p sep l, forallb p sep = true -> Forall (fun s => forallb p s = true) l ->
  forallb p (join sep l) = true.
Proof.
  intros p sep l Hs H. induction H as [|x l Hx H IH]; auto.
  destruct l as [|y l]; auto. rewrite join_cons by discriminate.
  rewrite !forallb_app, Hx, Hs, IH. reflexivity.
Qed.
Lemma forallb_weaken : forall {A} (p q : A -> bool) l, (forall x, p x = true -> q x = true) ->
  forallb p l = true -> forallb q l = true.
Proof. intros A p q l K H. rewrite forallb_forall in *. auto. Qed.
Lemma fmt_subslice_chars : forall l, forallb ip_char (fmt_subslice l) = true.
Proof.
  intros l. apply join_chars; [reflexivity|]. apply Forall_forall. intros s Hs.
  apply in_map_iff in Hs. destruct Hs as [x [<- _]].
  eapply forallb_weaken; [|apply show_hex_chars]. intros c Hc. unfold ip_char. rewrite Hc. auto.
Qed.
Lemma show_ip4_chars : forall n, forallb (fun c => dec_char c || (c =? c_dot)) (show_ip4 n) = true.
Proof.
  intros n. apply join_chars; [reflexivity|]. apply Forall_forall. intros s Hs.
  apply in_map_iff in Hs. destruct Hs as [x [<- _]].
  eapply forallb_weaken; [|apply show_N_chars]. intros c Hc. rewrite Hc. auto.
Qed.
Lemma show_ip_chars : forall a, forallb ip_char (show_ip a) = true.
Proof.
  intros [n|n]; cbn [show_ip].
  - eapply forallb_weaken; [|apply show_ip4_chars]. intros c. unfold ip_char, hex_char, dec_char. lia.
  - destruct (show_ip6_cases n) as [[ab [cd [_ ->]]]| ->].
    + rewrite forallb_app. apply andb_true_iff. split; [reflexivity|].
      eapply forallb_weaken; [|apply show_ip4_chars]. intros c. unfold ip_char, hex_char, dec_char. lia.
    + unfold show_ip6_plain. destruct (Nat.ltb _ _); [|apply fmt_subslice_chars].
      rewrite !forallb_app, !fmt_subslice_chars. reflexivity.
Qed.
Lemma fmt_subslice_nonempty : forall l, l <> [] -> fmt_subslice l <> [].
Proof.
  intros [|x l] H; [congruence|]. unfold fmt_subslice. pose proof (show_hex_nonempty x).
  destruct l; cbn [map join]; [auto|]. destruct (show_hex x); [congruence|discriminate].
Qed.
Lemma show_ip_nonempty : forall a, show_ip a <> [].
Proof.
  intros [n|n]; cbn [show_ip].
  - unfold show_ip4. destruct (octets4_four n) as [a [b [c [d [E _]]]]]. rewrite E.
    cbn [map join]. pose proof (show_N_nonempty a). destruct (show_N a); [congruence|discriminate].
  - destruct (show_ip6_cases n) as [[ab [cd [_ ->]]]| ->]; [discriminate|].
    unfold show_ip6_plain. destruct (Nat.ltb _ _).
    + destruct (fmt_subslice (firstn _ _)); discriminate.
    + apply fmt_subslice_nonempty. destruct (segments6_ok n) as [_ HL].
      destruct (segments6 n); discriminate.
Qed.
Lemma ip_char_not_ws : forall c, ip_char c = true -> is_ws c = false.
Proof. intros c. unfold ip_char, hex_char, is_ws, c_dot, c_colon. lia. Qed.
Lemma show_ip_token : forall a, token (show_ip a).
Proof.
  intros a. split; [apply show_ip_nonempty|].
  eapply class_no_ws; [apply show_ip_chars|apply ip_char_not_ws].
Qed.
(** IPv4 text has no colon, IPv6 text has one. *)
Lemma show_ip4_no_colon : forall n, contains c_colon (show_ip4 n) = false.
Proof. intros. eapply class_not_contains; [apply show_ip4_chars|reflexivity]. Qed.
Lemma show_ip6_colon : forall n, contains c_colon (show_ip6 n) = true.
Proof.
  intros n. destruct (show_ip6_cases n) as [[ab [cd [_ ->]]]| ->]; [reflexivity|].
  unfold show_ip6_plain. destruct (Nat.ltb _ _).
  - rewrite !contains_app. rewrite orb_true_r. reflexivity.
  - destruct (segments6_ok n) as [_ HL].
    destruct (segments6 n) as [|x [|y l]]; try discriminate HL.
    rewrite fmt_subslice_cons by discriminate. rewrite contains_app, contains_cons, N.eqb_refl.
    apply orb_true_r.
Qed.

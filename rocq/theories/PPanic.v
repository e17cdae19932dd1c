(** * Panic freedom (C01) *)
From Coq Require Import List NArith ZArith Bool Ascii String Lia ZifyBool ZifyNat ZifyN.
From Verif Require Import Str Num Net Types Ext Show Address AttrParse Media Session
  StrLemmas NumLemmas.
Import ListNotations.
Open Scope N_scope.
Open Scope list_scope.

(** ** Lengths of pieces *)
Definition total (l : list str) : nat := list_sum (map (fun t => S (List.length t)) l).
Lemma total_cons : forall x l, total (x :: l) = (S (List.length x) + total l)%nat.
Proof. reflexivity. Qed.
Lemma total_app : forall a b, total (a ++ b) = (total a + total b)%nat.
Proof. intros. unfold total. rewrite map_app, list_sum_app. auto. Qed.
Lemma total_split : forall c s, total (split c s) = S (List.length s).
Proof.
  intros c s. unfold split. induction s as [|x s IH]; auto. cbn [split_by].
  destruct (c =? x).
  - change (total ([] :: split_by (N.eqb c) s)) with (1 + total (split_by (N.eqb c) s))%nat.
    rewrite IH. auto.
  - pose proof (split_by_nonempty (N.eqb c) s). destruct (split_by (N.eqb c) s); [congruence|].
    rewrite total_cons in *. cbn [List.length]. lia.
Qed.
Lemma total_join : forall c l, l <> [] -> S (List.length (join [c] l)) = total l.
Proof.
  intros c l H. induction l as [|x l IH]; [congruence|]. destruct l as [|y l].
  - cbn. lia.
  - rewrite join_cons by discriminate. rewrite !app_length. cbn [List.length].
    specialize (IH ltac:(discriminate)). change (total (x :: y :: l)) with (S (List.length x) + total (y :: l))%nat.
    lia.
Qed.
Lemma total_in : forall l t, In t l -> (S (List.length t) <= total l)%nat.
Proof.
  induction l as [|x l IH]; intros t []; [subst|].
  - rewrite total_cons. lia.
  - apply IH in H. rewrite total_cons. lia.
Qed.
Lemma trim_length : forall s, (List.length (trim s) <= List.length s)%nat.
Proof.
  intros s. destruct (trim_decompose s) as [a [b [H _]]]. rewrite H at 2. rewrite !app_length. lia.
Qed.
Lemma strip_prefix_some : forall p s r, strip_prefix p s = Some r -> s = p ++ r.
Proof.
  induction p as [|x p IH]; intros s r H; cbn in H; [inv H; auto|].
  destruct s as [|y s]; [discriminate|]. destruct (x =? y) eqn:K; [|discriminate].
  apply N.eqb_eq in K. apply IH in H. subst. auto.
Qed.

Lemma idx_np : forall {E A} (l : list A) i, (i < List.length l)%nat -> idx (E:=E) l i <> Panic.
Proof. intros E A l i H. destruct (@idx_no_panic E A l i H) as [x [K _]]. congruence. Qed.
Lemma map_err_np : forall {E F A} (f : E -> F) (x : res E A), x <> Panic -> res_map_err f x <> Panic.
Proof. intros. destruct x; cbn; congruence. Qed.
Lemma splitn2_length : forall c s, contains c s = true -> List.length (splitn 2 c s) = 2%nat.
Proof.
  intros c s H. destruct (splitn2_cases c s) as [[K _]|[a [b [_ [_ ->]]]]]; [congruence|auto].
Qed.
Lemma splitn_pos : forall n c s, (1 <= List.length (splitn (S n) c s))%nat.
Proof. intros n c s. cbn. destruct n; cbn; [lia|]. destruct (split_once c s) as [[]|]; cbn; lia. Qed.
Lemma split_pos : forall c s, (1 <= List.length (split c s))%nat.
Proof. intros. pose proof (split_nonempty c s). destruct (split c s); cbn; [congruence|lia]. Qed.
Lemma split_contains : forall c s, contains c s = true -> (2 <= List.length (split c s))%nat.
Proof.
  intros c s H. apply contains_In in H. apply in_split in H. destruct H as [a [b ->]].
  assert (G : forall a b, (2 <= List.length (split c (a ++ c :: b)))%nat); [|apply G].
  clear. induction a as [|x a IH]; intros b.
  - cbn. rewrite N.eqb_refl. cbn. pose proof (split_pos c b). unfold split in *. lia.
  - specialize (IH b). unfold split in *. cbn [app split_by]. destruct (c =? x); cbn [List.length]; [lia|].
    destruct (split_by (N.eqb c) (a ++ c :: b)); cbn in *; lia.
Qed.

Section WithExt.
Context {E : Ext}.
Hypothesis OK : ext_total E.

Lemma p_u8_np : forall s, p_u8 s <> Panic.
Proof. intros. apply map_err_np, parse_uint_no_panic. Qed.
Lemma p_u16_np : forall s, p_u16 s <> Panic.
Proof. intros. apply map_err_np, parse_uint_no_panic. Qed.
Lemma p_u32_np : forall s, p_u32 s <> Panic.
Proof. intros. apply map_err_np, parse_uint_no_panic. Qed.
Lemma p_u64_np : forall s, p_u64 s <> Panic.
Proof. intros. apply map_err_np, parse_uint_no_panic. Qed.
Lemma p_f32_np : forall s, p_f32 s <> Panic.
Proof. intros. apply map_err_np, f32_no_panic, OK. Qed.
Lemma p_f64_np : forall s, p_f64 s <> Panic.
Proof. intros. apply map_err_np, f64_no_panic, OK. Qed.

Ltac np_step :=
  match goal with
  | |- Ok _ <> Panic => discriminate
  | |- Err _ <> Panic => discriminate
  | |- p_u8 _ <> Panic => apply p_u8_np
  | |- p_u16 _ <> Panic => apply p_u16_np
  | |- p_u32 _ <> Panic => apply p_u32_np
  | |- p_u64 _ <> Panic => apply p_u64_np
  | |- p_f32 _ <> Panic => apply p_f32_np
  | |- p_f64 _ <> Panic => apply p_f64_np
  | |- res_map_err _ _ <> Panic => apply map_err_np
  | |- parse_uint _ _ _ <> Panic => apply parse_uint_no_panic
  | |- bind _ _ <> Panic => apply bind_no_panic; [|intros ? ?]
  | |- ok_or _ _ <> Panic => unfold ok_or
  | |- mapM _ _ <> Panic => apply mapM_no_panic; intros ? ?
  | |- foldM _ _ _ <> Panic => apply foldM_no_panic; intros ? ? ?
  | |- up_to _ _ _ <> Panic => unfold up_to
  | |- idx _ _ <> Panic => apply idx_np; first [assumption | lia]
  | |- (let _ := _ in _) <> Panic => cbv zeta
  | |- context [match ?x with _ => _ end] => destruct x eqn:?
  end.
Ltac np := repeat np_step.

Lemma string_or_empty_np : forall s, string_or_empty s <> Panic.
Proof. intros. unfold string_or_empty. np. Qed.
Lemma parse_payload_type_np : forall s, parse_payload_type s <> Panic.
Proof. intros. unfold parse_payload_type. np. Qed.
Lemma parse_single_direction_np : forall s, parse_single_direction s <> Panic.
Proof. intros. unfold parse_single_direction. np. Qed.
Lemma address_np : forall s, address_from_str s <> Panic.
Proof.
  intros s. unfold address_from_str. pose proof (host_no_panic _ OK s).
  destruct (contains c_colon s); [destruct (parse_ip s)|]; try discriminate;
    destruct (host_parse s); congruence.
Qed.
Lemma typed_address_np : forall t s, typed_address_try_from t s <> Panic.
Proof. intros. unfold typed_address_try_from. np. apply address_np. Qed.
Lemma parse_network_type_np : forall s, parse_network_type s <> Panic.
Proof. intros. unfold parse_network_type. np. Qed.
Lemma addr_type_np : forall s, addr_type_from_str s <> Panic.
Proof. intros. unfold addr_type_from_str. np. Qed.
Lemma parse_address_type_np : forall s, parse_address_type s <> Panic.
Proof. intros. unfold parse_address_type. np. apply addr_type_np. Qed.

Ltac np2_step :=
  match goal with
  | |- string_or_empty _ <> Panic => apply string_or_empty_np
  | |- parse_payload_type _ <> Panic => apply parse_payload_type_np
  | |- parse_single_direction _ <> Panic => apply parse_single_direction_np
  | |- address_from_str _ <> Panic => apply address_np
  | |- parse_unicast_address _ <> Panic => apply address_np
  | |- typed_address_try_from _ _ <> Panic => apply typed_address_np
  | |- parse_network_type _ <> Panic => apply parse_network_type_np
  | |- addr_type_from_str _ <> Panic => apply addr_type_np
  | |- parse_address_type _ <> Panic => apply parse_address_type_np
  | _ => np_step
  end.
Ltac np2 := repeat np2_step.

Lemma ssrc_set_np : forall a s, ssrc_set_attribute a s <> Panic.
Proof.
  intros a s. unfold ssrc_set_attribute. destruct (contains c_colon a) eqn:K; cbn [negb]; [|np2].
  pose proof (splitn2_length _ _ K). cbv zeta. np2.
Qed.
Lemma parse_ssrc__np : forall s, parse_ssrc_ s <> Panic.
Proof. intros. unfold parse_ssrc_. np2. apply ssrc_set_np. Qed.
Lemma parse_ssrc_np : forall s, parse_ssrc s <> Panic.
Proof. intros. unfold parse_ssrc. np2. apply parse_ssrc__np. Qed.
Lemma parse_ssrc_group_np : forall s, parse_ssrc_group s <> Panic.
Proof.
  intros. unfold parse_ssrc_group.
  destruct (split_whitespace s); [np2|]. destruct (assoc_str _ _); [|np2].
  apply bind_no_panic; [|intros; np2]. apply mapM_no_panic. intros x Hx.
  unfold parse_ssrc. pose proof (parse_ssrc__np x). destruct (parse_ssrc_ x); cbn; congruence.
Qed.
Lemma parse_sctp_port_np : forall s, parse_sctp_port s <> Panic.
Proof. intros. unfold parse_sctp_port. np2. Qed.
Lemma candidate_extension_np : forall c n v, candidate_extension c n v <> Panic.
Proof.
  intros. unfold candidate_extension. cbv zeta.
  repeat match goal with |- (if ?b then _ else _) <> Panic => destruct b; [np2; fail|] end.
  np2.
Qed.
Lemma candidate_extensions_np : forall l c, candidate_extensions c l <> Panic.
Proof.
  intros l. assert (G : forall n l c, (List.length l <= n)%nat -> candidate_extensions c l <> Panic).
  { clear l. induction n as [|n IH]; intros l c H.
    - destruct l; [discriminate|cbn in H; lia].
    - destruct l as [|a [|b l]]; cbn [candidate_extensions]; try discriminate.
      apply bind_no_panic; [apply candidate_extension_np|]. intros. apply IH. cbn in H. lia. }
  intros c. apply (G (List.length l)). lia.
Qed.
Lemma parse_candidate_np : forall s, parse_candidate s <> Panic.
Proof.
  intros. unfold parse_candidate. cbv zeta.
  destruct (Nat.ltb_spec (List.length (split_whitespace s)) 8); [discriminate|].
  repeat (np2_step || apply candidate_extensions_np).
Qed.
Lemma parse_dtls_message_np : forall s, parse_dtls_message s <> Panic.
Proof.
  intros. unfold parse_dtls_message. cbv zeta.
  destruct (Nat.eqb_spec (List.length (split c_space s)) 2); cbn [negb]; np2.
Qed.
Lemma parse_extmap_np : forall s, parse_extmap s <> Panic.
Proof.
  intros. unfold parse_extmap. cbv zeta.
  destruct (Nat.ltb_spec (List.length (split_whitespace s)) 2); [discriminate|].
  apply bind_no_panic; [np2|intros t0 _].
  apply bind_no_panic; [|intros [id dir] _; np2].
  destruct (contains c_slash t0) eqn:K; cbn [negb]; [|np2].
  pose proof (splitn2_length _ _ K). np2.
Qed.
Lemma parse_fingerprint_np : forall s, parse_fingerprint s <> Panic.
Proof.
  intros. unfold parse_fingerprint. cbv zeta.
  destruct (Nat.eqb_spec (List.length (split_whitespace s)) 2); cbn [negb]; [|np2].
  apply bind_no_panic; [np2|intros]. apply bind_no_panic; [unfold hash_type_from_name; np2|intros].
  apply bind_no_panic; [np2|intros]. apply bind_no_panic; [unfold parse_octets; np2|intros].
  apply bind_no_panic; [unfold fingerprint_try_from; np2|intros]. np2.
Qed.
Lemma fmtp_parse_bool_np : forall a b, fmtp_parse_bool a b <> Panic.
Proof. intros. unfold fmtp_parse_bool. np2. Qed.
Lemma fmtp_parameter_np : forall p tok, fmtp_parameter p tok <> Panic.
Proof.
  intros. unfold fmtp_parameter.
  destruct (splitn 2 c_eq tok) as [|name [|val [|]]]; try discriminate. cbv zeta.
  repeat match goal with |- (if ?b then _ else _) <> Panic =>
    destruct b; [repeat (np2_step || apply fmtp_parse_bool_np); fail|] end.
  np2.
Qed.
Lemma fmtp_block_np : forall p tok, fmtp_block p tok <> Panic.
Proof.
  intros. unfold fmtp_block. destruct (contains c_eq tok); [|np2].
  apply foldM_no_panic. intros. apply fmtp_parameter_np.
Qed.
Lemma parse_fmtp_np : forall s, parse_fmtp s <> Panic.
Proof.
  intros. unfold parse_fmtp. cbv zeta.
  destruct (Nat.eqb_spec (List.length (splitn 2 c_space s)) 2); cbn [negb]; [|np2].
  apply bind_no_panic; [np2|intros].
  apply bind_no_panic; [|intros; np2]. apply foldM_no_panic. intros. apply fmtp_block_np.
Qed.
Lemma parse_framerate_np : forall s, parse_framerate s <> Panic.
Proof. intros. unfold parse_framerate. np2. Qed.
Lemma parse_group_np : forall s, parse_group s <> Panic.
Proof. intros. unfold parse_group. np2. Qed.
Lemma parse_ice_options_np : forall s, parse_ice_options s <> Panic.
Proof. intros. unfold parse_ice_options. np2. Qed.
Lemma parse_ice_pacing_np : forall s, parse_ice_pacing s <> Panic.
Proof. intros. unfold parse_ice_pacing. np2. Qed.

(** ** imageattr: the only place where the length matters *)
Definition short (n : nat) : Prop := (Z.of_nat n < 2147483648)%Z.
Lemma count_contains : forall c s, contains c s = true -> (1 <= List.length s)%nat.
Proof. intros c s H. destruct s; [discriminate|cbn; lia]. Qed.
Lemma tokens_loop_np : forall sep l k cur tokens,
  (Z.abs k + Z.of_nat (total l) - Z.of_nat (List.length l) < 2147483648)%Z ->
  imageattr_tokens_loop sep k cur tokens l <> Panic.
Proof.
  intros sep l. induction l as [|t l IH]; intros k cur tokens H; cbn [imageattr_tokens_loop]; [discriminate|].
  change (total (t :: l)) with (S (List.length t) + total l)%nat in H. cbn [List.length] in H.
  assert (C : (List.length l <= total l)%nat).
  { clear. induction l as [|x l IH]; auto. change (total (x :: l)) with (S (List.length x) + total l)%nat. cbn. lia. }
  destruct (contains c_lbr t) eqn:K1.
  - pose proof (count_contains _ _ K1). unfold i32_checked at 1.
    replace ((-2147483648 <=? k + 1) && (k + 1 <=? 2147483647))%Z with true by lia. cbn [bind].
    destruct (contains c_rbr t) eqn:K2.
    + unfold i32_checked.
      replace ((-2147483648 <=? k + 1 - 1) && (k + 1 - 1 <=? 2147483647))%Z with true by lia. cbn [bind].
      cbv zeta. destruct (k + 1 - 1 =? 0)%Z; apply IH; lia.
    + cbn [bind]. cbv zeta. destruct (k + 1 =? 0)%Z; apply IH; lia.
  - cbn [bind]. destruct (contains c_rbr t) eqn:K2.
    + pose proof (count_contains _ _ K2). unfold i32_checked.
      replace ((-2147483648 <=? k - 1) && (k - 1 <=? 2147483647))%Z with true by lia. cbn [bind].
      cbv zeta. destruct (k - 1 =? 0)%Z; apply IH; lia.
    + cbn [bind]. cbv zeta. destruct (k =? 0)%Z; apply IH; lia.
Qed.
Lemma parse_tokens_np : forall s sep, short (List.length s) -> parse_imageattr_tokens s sep <> Panic.
Proof.
  intros s sep H. unfold parse_imageattr_tokens. apply tokens_loop_np. rewrite total_split.
  pose proof (split_pos sep s). unfold short in H. lia.
Qed.
Lemma tokens_loop_total : forall sep l k cur tokens r,
  imageattr_tokens_loop sep k cur tokens l = Ok r ->
  (total r <= total tokens + total cur + total l)%nat.
Proof.
  intros sep l. induction l as [|t l IH]; intros k cur tokens r H; cbn [imageattr_tokens_loop] in H.
  - inv H. lia.
  - apply bind_ok in H. destruct H as [k1 [_ H]]. apply bind_ok in H. destruct H as [k2 [_ H]].
    cbv zeta in H. destruct (k2 =? 0)%Z; apply IH in H.
    + rewrite total_app, total_cons in H. change (total []) with 0%nat in H.
      pose proof (total_join sep (cur ++ [t]) ltac:(destruct cur; discriminate)) as J.
      rewrite total_app, total_cons in J. change (total []) with 0%nat in J. rewrite total_cons. lia.
    + rewrite total_app, total_cons in H. change (total []) with 0%nat in H. rewrite total_cons. lia.
Qed.
Lemma parse_tokens_length : forall s sep r t, parse_imageattr_tokens s sep = Ok r -> In t r ->
  (List.length t <= List.length s)%nat.
Proof.
  intros s sep r t H Ht. unfold parse_imageattr_tokens in H. apply tokens_loop_total in H.
  rewrite total_split in H. apply total_in in Ht. change (total []) with 0%nat in H. lia.
Qed.
Lemma slice_inner_length : forall s r, slice_inner s = Ok r -> (List.length r <= List.length s)%nat.
Proof.
  intros s r H. unfold slice_inner in H. destruct s as [|x s]; [discriminate|].
  destruct (rev s) as [|y l] eqn:K; inv H. rewrite rev_length.
  apply (f_equal (@List.length N)) in K. rewrite rev_length in K. cbn in *. lia.
Qed.
Lemma braced_np : forall s e, braced_token s e <> Panic.
Proof.
  intros s e. unfold braced_token. destruct (starts_with_char c_lbr s) eqn:K1; cbn [negb]; [|discriminate].
  destruct (ends_with_char c_rbr s) eqn:K2; cbn [negb]; [|discriminate].
  unfold slice_inner. destruct s as [|x [|y s]]; [discriminate| |].
  - unfold starts_with_char in K1. unfold ends_with_char in K2. cbn in K2.
    apply N.eqb_eq in K1. subst. discriminate.
  - destruct (rev (y :: s)) eqn:K; [|discriminate].
    apply (f_equal (@List.length N)) in K. rewrite rev_length in K. discriminate.
Qed.
Lemma braced_length : forall s e r, braced_token s e = Ok r -> (List.length r <= List.length s)%nat.
Proof.
  intros s e r H. unfold braced_token in H.
  destruct (negb (starts_with_char c_lbr s)); [discriminate|].
  destruct (negb (ends_with_char c_rbr s)); [discriminate|]. apply slice_inner_length. auto.
Qed.
Lemma parse_xyrange_np : forall s, parse_xyrange s <> Panic.
Proof.
  intros s. unfold parse_xyrange. destruct (starts_with_char c_lbr s); [|np2].
  apply bind_no_panic; [apply braced_np|intros]. np2.
Qed.
Lemma parse_ps_range_np : forall s, parse_ps_range s <> Panic.
Proof. intros s. unfold parse_ps_range. np2. Qed.
Lemma ascending_np : forall l x, ascending x l <> Panic.
Proof. induction l as [|y l IH]; intros x; cbn; [discriminate|]. destruct (f32_ge x y); [discriminate|auto]. Qed.
Lemma parse_sar_np : forall s, parse_sar s <> Panic.
Proof.
  intros s. unfold parse_sar. destruct (starts_with_char c_lbr s); [|np2].
  apply bind_no_panic; [apply braced_np|intros]. destruct (contains c_minus s).
  - apply bind_no_panic; [apply parse_ps_range_np|intros [] _]. discriminate.
  - repeat (apply ascending_np || np2_step).
Qed.
Lemma parse_par_np : forall s, parse_par s <> Panic.
Proof.
  intros s. unfold parse_par. destruct (negb _); [discriminate|].
  apply bind_no_panic; [apply braced_np|intros].
  apply bind_no_panic; [apply parse_ps_range_np|intros [] _]. discriminate.
Qed.
Lemma image_set_key_np : forall acc t, image_set_key acc t <> Panic.
Proof.
  intros [[sar par] q] t. unfold image_set_key.
  repeat (apply parse_sar_np || apply parse_par_np || np2_step).
Qed.
Lemma parse_image_set_np : forall s, short (List.length s) -> parse_image_set s <> Panic.
Proof.
  intros s H. unfold parse_image_set. apply bind_no_panic; [apply parse_tokens_np; auto|intros l _].
  destruct l as [|x l]; [discriminate|]. destruct (strip_prefix _ x); [|discriminate].
  apply bind_no_panic; [apply parse_xyrange_np|intros]. destruct l as [|y l]; [discriminate|].
  destruct (strip_prefix _ y); [|discriminate].
  apply bind_no_panic; [apply parse_xyrange_np|intros].
  apply bind_no_panic; [|intros [[] ?]; discriminate].
  apply foldM_no_panic. intros. apply image_set_key_np.
Qed.
Lemma parse_set_np : forall s, short (List.length s) -> parse_set s <> Panic.
Proof.
  intros s H. unfold parse_set. apply bind_no_panic; [apply braced_np|intros i Hi].
  apply parse_image_set_np. apply braced_length in Hi. unfold short in *. lia.
Qed.
Lemma more_sets_np : forall l sets, (forall t, In t l -> short (List.length t)) -> more_sets sets l <> Panic.
Proof.
  induction l as [|t l IH]; intros sets H; cbn [more_sets]; [discriminate|].
  destruct (starts_with_char c_lbr t); [|discriminate].
  apply bind_no_panic; [apply parse_set_np; apply H; left; auto|]. intros. apply IH. intros; apply H; right; auto.
Qed.
Lemma more_sets_rest : forall l sets sets' r, more_sets sets l = Ok (sets', r) ->
  forall t, In t r -> In t l.
Proof.
  induction l as [|x l IH]; intros sets sets' r H t Ht; cbn [more_sets] in H.
  - inv H. auto.
  - destruct (starts_with_char c_lbr x); [|inv H; auto].
    apply bind_ok in H. destruct H as [s [_ H]]. right. eapply IH; eauto.
Qed.
Lemma image_set_list_np : forall l, (forall t, In t l -> short (List.length t)) -> parse_image_set_list l <> Panic.
Proof.
  intros l H. unfold parse_image_set_list. destruct l as [|t l]; [discriminate|].
  destruct (str_eqb t _); [discriminate|]. apply bind_no_panic; [apply parse_set_np; apply H; left; auto|].
  intros. apply bind_no_panic; [apply more_sets_np; intros; apply H; right; auto|].
  intros [? ?] _. discriminate.
Qed.
Lemma image_set_list_rest : forall l x r, parse_image_set_list l = Ok (x, r) -> forall t, In t r -> In t l.
Proof.
  intros l x r H t Ht. unfold parse_image_set_list in H. destruct l as [|y l]; [discriminate|].
  destruct (str_eqb y _); [inv H; right; auto|].
  apply bind_ok in H. destruct H as [s [_ H]]. apply bind_ok in H. destruct H as [[sets r'] [H1 H]].
  inv H. right. eapply more_sets_rest; eauto.
Qed.
Lemma parse_image_attr_np : forall s, short (List.length s) -> parse_image_attr s <> Panic.
Proof.
  intros s H. unfold parse_image_attr.
  apply bind_no_panic; [apply parse_tokens_np; auto|intros l Hl].
  assert (L : forall t, In t l -> short (List.length t)).
  { intros t Ht. apply (parse_tokens_length s c_space l t Hl) in Ht. unfold short in *. lia. }
  destruct l as [|t0 l]; [discriminate|]. apply bind_no_panic; [np2|intros]. destruct l as [|t1 l]; [discriminate|].
  apply bind_no_panic; [np2|intros].
  apply bind_no_panic; [apply image_set_list_np; intros; apply L; right; right; auto|].
  intros [fs l'] K1. pose proof (image_set_list_rest _ _ _ K1) as R.
  apply bind_no_panic; [|intros [? [|]]; discriminate].
  destruct l' as [|d l']; [discriminate|]. apply bind_no_panic; [np2|intros].
  destruct (single_direction_eqb _ _); [discriminate|]. apply image_set_list_np.
  intros t Ht. apply L. right. right. apply R. right. auto.
Qed.

Lemma parse_msid_np : forall s, parse_msid s <> Panic.
Proof. intros. unfold parse_msid. np2. Qed.
Lemma parse_msid_semantic_np : forall s, parse_msid_semantic s <> Panic.
Proof. intros. unfold parse_msid_semantic. np2. Qed.
Lemma rid_parameter_np : forall a p, rid_parameter a p <> Panic.
Proof.
  intros [p d] s. unfold rid_parameter.
  destruct (splitn 2 c_eq s) as [|name [|val [|]]]; try discriminate.
  repeat match goal with |- (if ?b then _ else _) <> Panic => destruct b; [np2; fail|] end. np2.
Qed.
Lemma parse_rid_np : forall s, parse_rid s <> Panic.
Proof.
  intros s. unfold parse_rid. cbv zeta.
  destruct (Nat.ltb_spec (List.length (splitn 3 c_space s)) 2); [discriminate|].
  apply bind_no_panic; [|intros [[? ?] ?] _; np2].
  destruct (nth_error (splitn 3 c_space s) 2); [|discriminate].
  apply bind_no_panic; [np2|]. intros [fs ps] _.
  apply bind_no_panic; [|intros [? ?] _; np2]. apply foldM_no_panic. intros. apply rid_parameter_np.
Qed.
Lemma parse_remote_candidates_np : forall s, parse_remote_candidates s <> Panic.
Proof. intros. unfold parse_remote_candidates. np2. Qed.
Lemma parse_rtpmap_np : forall s, parse_rtpmap s <> Panic.
Proof. intros. unfold parse_rtpmap. np2. Qed.
Lemma parse_rtcp_np : forall s, parse_rtcp s <> Panic.
Proof. intros. unfold parse_rtcp. np2. Qed.
Lemma parse_rtcp_fb_np : forall s, parse_rtcp_fb s <> Panic.
Proof.
  intros. unfold parse_rtcp_fb. cbv zeta. pose proof (splitn_pos 3 c_space s).
  apply bind_no_panic; [np2|intros]. apply bind_no_panic; [unfold rtcp_fb_parameter; np2|intros]. np2.
Qed.
Lemma parse_sctpmap_np : forall s, parse_sctpmap s <> Panic.
Proof.
  intros. unfold parse_sctpmap. cbv zeta.
  destruct (Nat.eqb_spec (List.length (split_whitespace s)) 3); cbn [negb]; np2.
Qed.
Lemma parse_setup_np : forall s, parse_setup s <> Panic.
Proof. intros. unfold parse_setup. np2. Qed.
Lemma version_list_np : forall s, parse_simulcast_version_list s <> Panic.
Proof.
  intros. unfold parse_simulcast_version_list. destruct (contains c_eq s) eqn:K; [|discriminate].
  pose proof (splitn2_length _ _ K). cbv zeta. np2.
Qed.
Lemma parse_simulcast_np : forall s, parse_simulcast s <> Panic.
Proof. intros. unfold parse_simulcast. repeat (apply version_list_np || np2_step). Qed.

Lemma attr_parsers_np : forall n p v, In (n, p) attr_parsers -> short (List.length v) -> p v <> Panic.
Proof.
  intros n p v H L. unfold attr_parsers in H. cbn [In] in H.
  repeat (destruct H as [H|H]; [apply pair_equal_spec in H; destruct H as [_ <-];
    first [ discriminate
          | apply parse_dtls_message_np | apply parse_image_attr_np; exact L | apply parse_msid_semantic_np
          | apply parse_ice_pacing_np | apply parse_rid_np | apply parse_ssrc_group_np
          | apply parse_sctp_port_np | apply parse_candidate_np | apply parse_extmap_np
          | apply parse_fingerprint_np | apply parse_fmtp_np | apply parse_framerate_np
          | apply parse_group_np | apply parse_ice_options_np | apply parse_msid_np
          | apply parse_remote_candidates_np | apply parse_rtpmap_np | apply parse_rtcp_np
          | apply parse_rtcp_fb_np | apply parse_sctpmap_np | apply parse_setup_np
          | apply parse_simulcast_np | apply parse_ssrc_np | np2 ]|]).
  contradiction.
Qed.
Lemma attr_from_str_np : forall s, short (List.length s) -> attr_from_str s <> Panic.
Proof.
  intros s L. unfold attr_from_str. cbv zeta. pose proof (splitn_pos 1 c_colon s).
  apply bind_no_panic; [np2|intros t0 _].
  destruct (Nat.ltb 1 _ && _); [discriminate|].
  destruct (assoc_str (to_lower t0) attr_parsers) as [p|] eqn:K; [|discriminate].
  apply assoc_str_In in K. eapply attr_parsers_np; eauto.
  destruct (splitn2_cases c_colon s) as [[_ ->]|[a [b [Hs [_ ->]]]]]; cbn [nth_error].
  - unfold short. cbn. lia.
  - pose proof (trim_length b). subst s. rewrite app_length in L. cbn [List.length] in L.
    unfold short in *. lia.
Qed.
Lemma parse_attribute_np : forall s, short (List.length s) -> parse_attribute s <> Panic.
Proof.
  intros s L. unfold parse_attribute. apply bind_no_panic; [|discriminate].
  apply attr_from_str_np. pose proof (trim_length s). unfold short in *. lia.
Qed.

Lemma parse_media_np : forall s, parse_media s <> Panic.
Proof.
  intros. unfold parse_media. cbv zeta.
  destruct (Nat.ltb_spec (List.length (split_whitespace s)) 4); [discriminate|].
  unfold parse_media_token, parse_protocol_token. np2.
Qed.
Lemma parse_version_np : forall s, parse_version s <> Panic.
Proof. intros. unfold parse_version. np2. Qed.
Lemma parse_origin_np : forall s, parse_origin s <> Panic.
Proof. intros. unfold parse_origin. np2. Qed.
Lemma parse_connection_np : forall s, parse_connection s <> Panic.
Proof.
  intros. unfold parse_connection. cbv zeta.
  destruct (Nat.eqb_spec (List.length (split_whitespace s)) 3); cbn [negb]; [|np2].
  do 5 (apply bind_no_panic; [np2|intros]). apply bind_no_panic; [|intros [[? ?] ?] _; np2].
  match goal with |- (if contains _ ?t then _ else _) <> Panic => destruct (contains c_slash t) eqn:K end; [|np2].
  pose proof (split_contains _ _ K).
  match goal with |- bind (if Nat.leb 3 ?n then _ else _) _ <> Panic => destruct (Nat.leb_spec 3 n) end; np2.
Qed.
Lemma parse_bandwidth_np : forall s, parse_bandwidth s <> Panic.
Proof.
  intros. unfold parse_bandwidth. cbv zeta.
  destruct (Nat.eqb_spec (List.length (split c_colon s)) 2); cbn [negb]; np2.
Qed.
Lemma parse_timing_np : forall s, parse_timing s <> Panic.
Proof.
  intros. unfold parse_timing. cbv zeta.
  destruct (Nat.eqb_spec (List.length (split_whitespace s)) 2); cbn [negb]; np2.
Qed.
Lemma parse_value_np : forall t v raw, short (List.length v) -> parse_value t v raw <> Panic.
Proof.
  intros t v raw L. unfold parse_value.
  repeat match goal with |- (if ?b then _ else _) <> Panic => destruct b;
    [first [apply parse_attribute_np; exact L | apply parse_bandwidth_np | apply parse_connection_np
           | discriminate | apply parse_media_np | apply parse_origin_np | apply parse_timing_np
           | apply parse_version_np]|] end.
  discriminate.
Qed.
Lemma parse_sdp_line_np : forall line n, short (List.length line) -> parse_sdp_line line n <> Panic.
Proof.
  intros line n L. unfold parse_sdp_line. destruct (negb (contains c_eq line)); [discriminate|].
  destruct (splitn2_cases c_eq line) as [[_ ->]|[a [b [Hs [_ ->]]]]].
  - cbv zeta. np2.
  - cbv zeta. destruct (1 <? _); [discriminate|]. destruct (is_empty _); [discriminate|].
    destruct (is_empty (trim b) && _); [discriminate|].
    assert (K : parse_value (to_lower (trim a)) (trim b) b <> Panic).
    { apply parse_value_np. pose proof (trim_length b). subst line. rewrite app_length in L.
      cbn [List.length] in L. unfold short in *. lia. }
    destruct (parse_value _ _ _); try discriminate. congruence.
Qed.

Lemma session_vector_np : forall l s, snd (parse_session_vector s l) <> Panic.
Proof.
  induction l as [|x l IH]; intros s; cbn [parse_session_vector]; [discriminate|].
  destruct (l_type x); try discriminate; try apply IH.
  unfold session_add_attribute. destruct (negb _); [discriminate|]. cbn [snd]. apply IH.
Qed.
Lemma media_loop_np : forall l d m, media_loop d m l <> Panic.
Proof.
  induction l as [|x l IH]; intros d m; cbn [media_loop]; [discriminate|].
  destruct (l_type x); try discriminate; try apply IH.
  - unfold media_line_attribute, add_attribute. destruct a; cbn [negb allowed_at_media_level];
      try discriminate; apply IH.
  - destruct (m_connection m); [discriminate|apply IH].
Qed.
Lemma sanity_np : forall s, sanity_check s <> Panic.
Proof.
  intros s. unfold sanity_check, seq_error. destruct (negb _); [discriminate|]. cbv zeta.
  destruct (_ && _); [discriminate|]. destruct (_ && _); [discriminate|].
  induction (s_media s) as [|m l IH]; cbn [sanity_check_all]; [discriminate|].
  apply bind_no_panic; auto. unfold sanity_check_media, seq_error. np2.
Qed.
Lemma split_at_media_head : forall l x a b, split_at_media l = (a, x :: b) -> is_media_line x = true.
Proof.
  induction l as [|y l IH]; intros x a b H; cbn in H; [discriminate|].
  destruct (is_media_line y) eqn:K; [inv H; auto|].
  destruct (split_at_media l) as [a' b'] eqn:K2. inv H. eapply IH; eauto.
Qed.
Lemma vector_np : forall l, parse_sdp_vector l <> Panic.
Proof.
  intros l. unfold parse_sdp_vector.
  destruct (Nat.ltb_spec (List.length l) 4); [discriminate|].
  apply bind_no_panic; [np2|intros l0 _]. destruct (l_type l0); try discriminate.
  apply bind_no_panic; [np2|intros l1 _]. destruct (l_type l1); try discriminate.
  apply bind_no_panic; [np2|intros l2 _]. destruct (l_type l2); try discriminate.
  cbv zeta. destruct (split_at_media (skipn 3 l)) as [hd tl].
  apply bind_no_panic; [|intros; apply bind_no_panic; [apply sanity_np|discriminate]].
  assert (K : keep (parse_session_vector (session_new v o s) hd) <> Panic).
  { pose proof (session_vector_np hd (session_new v o s)). destruct (parse_session_vector _ hd) as [? []]; cbn in *; congruence. }
  destruct tl as [|x tl]; auto. apply bind_no_panic; auto. intros.
  apply bind_no_panic; [|discriminate]. unfold parse_media_vector.
  destruct (l_type x); try discriminate. apply media_loop_np.
Qed.
Lemma media_vector_np : forall l, parse_media_vector l = Panic <-> l = [].
Proof.
  intros [|x l]; cbn [parse_media_vector]; [tauto|]. split; [|discriminate].
  destruct (l_type x); try discriminate. intros H. apply media_loop_np in H. contradiction.
Qed.
Lemma scan_np : forall ls n acc, (forall x, In x ls -> short (List.length x)) -> scan_lines n acc ls <> Panic.
Proof.
  induction ls as [|x ls IH]; intros n acc H; cbn [scan_lines]; [discriminate|].
  assert (H' : forall y, In y ls -> short (List.length y)) by (intros; apply H; right; auto).
  destruct (is_empty (trim x)); [apply IH; auto|].
  pose proof (parse_sdp_line_np x n (H x (or_introl eq_refl))).
  destruct (parse_sdp_line x n) as [|[]|]; try congruence; apply IH; auto.
Qed.
Lemma lines_length : forall s x, In x (lines s) -> (List.length x <= List.length s)%nat.
Proof.
  intros s x H. unfold lines in H.
  assert (P : forall t, In t (split c_lf s) -> (List.length t <= List.length s)%nat).
  { intros t Ht. pose proof (total_in _ _ Ht). rewrite total_split in H0. lia. }
  assert (C : forall t, (List.length (strip_cr t) <= List.length t)%nat).
  { intros t. unfold strip_cr. destruct (rev t) as [|c r] eqn:K; auto. destruct (c =? c_cr); auto.
    apply (f_equal (@List.length N)) in K. rewrite rev_length in *. cbn in K. lia. }
  induction (split c_lf s) as [|t l IH]; [contradiction|]. destruct l as [|u l].
  - cbn in H. destruct (is_empty t); [contradiction|]. destruct H as [<-|[]]. apply P. left; auto.
  - rewrite lines_of_cons in H by discriminate. destruct H as [<-|H].
    + specialize (C t). specialize (P t (or_introl eq_refl)). lia.
    + apply IH; auto. intros; apply P; right; auto.
Qed.
Lemma parse_sdp_np : forall s b, short (List.length s) -> parse_sdp s b <> Panic.
Proof.
  intros s b L. unfold parse_sdp. destruct (is_empty s); [discriminate|].
  destruct (_ <? _); [discriminate|]. apply bind_no_panic.
  - apply scan_np. intros x Hx. apply lines_length in Hx. unfold short in *. lia.
  - intros sc _. assert (K : bind (parse_sdp_vector (sc_lines sc))
      (fun s => Ok (session_with_warnings (sc_warnings sc) s)) <> Panic).
    { apply bind_no_panic; [apply vector_np|discriminate]. }
    destruct b, (sc_warnings sc), (last_error (sc_errors sc)); try discriminate; exact K.
Qed.
End WithExt.

(** ** A text that makes the parser panic *)
Section Overflow.
Context {E : Ext}.
Fixpoint brackets (n : nat) : str := match n with O => [] | S n' => c_space :: c_lbr :: brackets n' end.
Definition long_text (n : nat) : str := lit "a=imageattr:[" ++ brackets n.
Lemma brackets_split : forall n, split c_space (c_lbr :: brackets n) = repeat [c_lbr] (S n).
Proof.
  induction n as [|n IH]; [reflexivity|].
  change (c_lbr :: brackets (S n)) with ([c_lbr] ++ c_space :: (c_lbr :: brackets n)).
  rewrite split_app by reflexivity. rewrite IH. reflexivity.
Qed.
Lemma loop_overflow : forall n k cur tokens, (0 <= k <= 2147483647)%Z ->
  (k + Z.of_nat n > 2147483647)%Z ->
  imageattr_tokens_loop c_space k cur tokens (repeat [c_lbr] n) = Panic.
Proof.
  induction n as [|n IH]; intros k cur tokens H1 H2; [lia|].
  cbn [repeat imageattr_tokens_loop]. change (contains c_lbr [c_lbr]) with true.
  change (contains c_rbr [c_lbr]) with false. cbv iota. unfold i32_checked.
  destruct (Z.eq_dec k 2147483647) as [->|Hk]; [reflexivity|].
  replace ((-2147483648 <=? k + 1) && (k + 1 <=? 2147483647))%Z with true by lia. cbn [bind]. cbv zeta.
  replace (k + 1 =? 0)%Z with false by lia. apply IH; lia.
Qed.
Lemma brackets_ends : forall n, ends_ok (c_lbr :: brackets n).
Proof.
  induction n as [|n IH]; [exists [], c_lbr; auto|]. cbn [brackets].
  apply ends_ok_cons. apply ends_ok_cons. exact IH.
Qed.
Lemma brackets_no : forall c n, (c =? c_space) = false -> (c =? c_lbr) = false ->
  contains c (c_lbr :: brackets n) = false.
Proof.
  intros c n H1 H2. induction n as [|n IH]; [unfold contains; cbn [existsb brackets]; rewrite H2; auto|].
  cbn [brackets]. rewrite contains_cons, H2, contains_cons, H1. exact IH.
Qed.
Lemma overflow_line : forall n k, (Z.of_nat n > 2147483647)%Z -> parse_sdp_line (long_text n) k = Panic.
Proof.
  intros n k H. unfold parse_sdp_line, long_text.
  change (lit "a=imageattr:[" ++ brackets n) with
    ([97] ++ c_eq :: (lit "imageattr" ++ c_colon :: (c_lbr :: brackets n))).
  set (l := [97] ++ _). replace (contains c_eq l) with true
    by (symmetry; apply contains_In; right; left; reflexivity). cbn [negb]. subst l.
  rewrite splitn2_app by reflexivity.
  set (v := lit "imageattr" ++ c_colon :: c_lbr :: brackets n).
  assert (T : trim v = v).
  { apply trim_id. split; [exists 105, (lit "mageattr" ++ c_colon :: c_lbr :: brackets n); auto|].
    apply ends_ok_app. apply ends_ok_cons, brackets_ends. }
  cbv zeta. change (trim [97]) with [97]. change (1 <? byte_len [97]) with false.
  cbn [is_empty]. change (to_lower [97]) with [97]. rewrite T.
  change (is_empty v) with false. cbn [andb].
  change (parse_value [97] v v) with (parse_attribute v).
  unfold parse_attribute. rewrite T. unfold attr_from_str, v. rewrite splitn2_app by reflexivity.
  cbv zeta. cbn [idx nth_error bind].
  change (to_lower (lit "imageattr")) with (lit "imageattr").
  change (Nat.ltb 1 (List.length [lit "imageattr"; c_lbr :: brackets n]) && mem_str (lit "imageattr") flag_names) with false.
  cbv iota.
  change (assoc_str (lit "imageattr") attr_parsers) with (Some parse_image_attr). cbv iota.
  rewrite trim_id by (split; [exists c_lbr, (brackets n); auto|apply brackets_ends]).
  unfold parse_image_attr, parse_imageattr_tokens. rewrite brackets_split, loop_overflow by lia. reflexivity.
Qed.
Lemma overflow_text : forall n b, (Z.of_nat n > 2147483647)%Z -> parse_sdp (long_text n) b = Panic.
Proof.
  intros n b H. unfold parse_sdp. change (is_empty (long_text n)) with false. cbv iota.
  assert (L : (byte_len (long_text n) <? 51) = false).
  { pose proof (byte_len_length (long_text n)) as K. unfold long_text in *.
    assert (B : List.length (brackets n) = (2 * n)%nat).
    { clear. induction n; cbn [brackets List.length]; lia. }
    rewrite app_length, B in K. apply N.ltb_ge. lia. }
  rewrite L.
  assert (NL : no_lf (long_text n)).
  { unfold no_lf, long_text. change (lit "a=imageattr:[" ++ brackets n) with
      (lit "a=imageattr:" ++ (c_lbr :: brackets n)).
    rewrite contains_app, brackets_no by reflexivity. reflexivity. }
  rewrite lines_last by (auto; discriminate). cbn [scan_lines].
  assert (T : is_empty (trim (long_text n)) = false).
  { rewrite trim_id; [reflexivity|]. split; [exists 97, (skipn 1 (long_text n)); auto|].
    unfold long_text. change (lit "a=imageattr:[" ++ brackets n) with
      (lit "a=imageattr:" ++ (c_lbr :: brackets n)). apply ends_ok_app, brackets_ends. }
  rewrite T, overflow_line by auto. reflexivity.
Qed.
End Overflow.

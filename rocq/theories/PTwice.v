(** * Masking what is masked (C63) *)
From Coq Require Import List Arith NArith Lia Bool Ascii String.
From Coq Require Import ZifyBool ZifyNat ZifyN.
From Verif Require Import Str Num Net Types Anon SpecAnon SpecMask SpecTwice PAnon PAnon2 PAnon3 PAnon4.
Import ListNotations.
Open Scope N_scope.
Open Scope list_scope.

(** ** Codes repeat with the period of the counter *)
Lemma capacity_nz : forall k, capacity k <> 0.
Proof. destruct k; discriminate. Qed.
Lemma fp_mod : forall n, n mod two64 mod 256 = n mod 256.
Proof.
  intros n. change two64 with (256 * 72057594037927936). rewrite N.mod_mul_r by discriminate.
  rewrite (N.mul_comm 256), N.mod_add by discriminate. apply N.mod_mod. discriminate.
Qed.
Lemma code_mod : forall k n m, n mod capacity k = m mod capacity k -> code k n = code k m.
Proof.
  intros k n m H. destruct k; cbn [capacity code] in *; unfold text_code;
    rewrite ?cap64, ?cap32, ?cap128 in H; try (rewrite H; reflexivity).
  rewrite !to_byte_vec_val, !fp_mod. change (2 ^ 8) with 256 in H. rewrite H. reflexivity.
Qed.
Lemma code_period : forall k n, 1 <= n -> code k n = code k ((n - 1) mod capacity k + 1).
Proof.
  intros k n H. apply code_mod. rewrite N.add_mod_idemp_l by apply capacity_nz. f_equal. lia.
Qed.
Lemma kind_code : forall k n, kind_of (code k n) = k.
Proof. destruct k; reflexivity. Qed.

(** ** First occurrences *)
Lemma first_seen_more : forall k a b, exists c, first_seen k (a ++ b) = first_seen k a ++ c.
Proof.
  intros k a b. induction b as [|f b IH] using rev_ind; [exists []; rewrite !app_nil_r; reflexivity|].
  destruct IH as [c IH]. rewrite app_assoc, first_seen_snoc, IH.
  destruct (kind_eq_dec _ _); [|exists c; reflexivity]. destruct (in_dec _ _ _); [exists c; reflexivity|].
  exists (c ++ [f]). rewrite app_assoc. reflexivity.
Qed.
Section Twice.
Variable FS : list field.
Let M (f : field) : field := fst (mask_field f (run anon_new FS)).
Lemma M_code : forall f n, In f FS -> nth_distinct f n FS -> M f = code (kind_of f) (N.of_nat n).
Proof. intros f n I H. apply mask_field_code. unfold nth_distinct in *. rewrite first_seen_again by exact I. exact H. Qed.
Lemma M_kind : forall f, In f FS -> kind_of (M f) = kind_of f.
Proof. intros f I. destruct (nth_distinct_ex f FS I) as [n H]. rewrite (M_code f n I H). apply kind_code. Qed.
Definition upto_code (k : kind) (j : nat) : list field := map (fun i => code k (N.of_nat i)) (seq 1 j).
Lemma upto_in : forall k j g, In g (upto_code k j) <-> exists i, (1 <= i <= j)%nat /\ code k (N.of_nat i) = g.
Proof.
  intros k j g. unfold upto_code. rewrite in_map_iff. split.
  - intros (i & Q & I). apply in_seq in I. exists i. split; [lia|exact Q].
  - intros (i & L & Q). exists i. split; [exact Q|]. apply in_seq. lia.
Qed.
Lemma masks_seen : forall k fs rest, FS = fs ++ rest ->
  exists j, first_seen k (map M fs) = upto_code k j /\ N.of_nat j = N.min (len (first_seen k fs)) (capacity k).
Proof.
  intros k fs. induction fs as [|f fs IH] using rev_ind; intros rest Q.
  - exists 0%nat. split; [reflexivity|]. cbn. lia.
  - destruct (IH ([f] ++ rest)) as (j & H & J); [rewrite Q, <- app_assoc; reflexivity|]. rewrite map_app. cbn [map].
    assert (IF : In f FS) by (rewrite Q, !in_app_iff; left; right; left; reflexivity).
    rewrite !first_seen_snoc, (M_kind f IF). destruct (kind_eq_dec (kind_of f) k) as [K|K]; [|exists j; split; assumption].
    destruct (in_dec field_eq_dec f (first_seen k fs)) as [Y|Y].
    + exists j. split; [|exact J]. destruct (in_dec field_eq_dec (M f) (first_seen k (map M fs))) as [_|Z]; [exact H|].
      destruct Z. apply first_seen_In. apply first_seen_In in Y. destruct Y as [Y _]. split; [apply in_map; exact Y|].
      rewrite (M_kind f IF). exact K.
    + set (m := List.length (first_seen k fs)) in *.
      assert (ND : nth_distinct f (S m) FS).
      { split; [lia|]. rewrite K, Q. replace (S m - 1)%nat with m by lia. destruct (first_seen_more k (fs ++ [f]) rest) as [c C]. rewrite C, first_seen_snoc.
        destruct (kind_eq_dec (kind_of f) k) as [_|X]; [|congruence]. destruct (in_dec field_eq_dec f (first_seen k fs)) as [X|_]; [contradiction|].
        rewrite <- app_assoc. rewrite nth_error_app2 by reflexivity. fold m. rewrite Nat.sub_diag. reflexivity. }
      assert (C := M_code f (S m) IF ND). rewrite K in C. rewrite C, H. unfold len in *. fold m in J. rewrite app_length. cbn [List.length]. fold m.
      destruct (N.le_gt_cases (N.of_nat (S m)) (capacity k)) as [L|L].
      * assert (j = m) by lia. subst j. exists (S m). split; [|lia].
        destruct (in_dec field_eq_dec (code k (N.of_nat (S m))) (upto_code k m)) as [Y'|_].
        -- apply upto_in in Y'. destruct Y' as (i & I & E). apply code_inj in E; lia.
        -- unfold upto_code. rewrite seq_S, map_app. reflexivity.
      * exists j. split; [|lia].
        destruct (in_dec field_eq_dec (code k (N.of_nat (S m))) (upto_code k j)) as [_|X]; [reflexivity|]. destruct X. apply upto_in.
        assert (B := N.mod_lt (N.of_nat (S m) - 1) (capacity k) (capacity_nz k)).
        exists (N.to_nat ((N.of_nat (S m) - 1) mod capacity k + 1)). split; [lia|].
        rewrite N2Nat.id. symmetry. apply code_period. lia.
Qed.
Lemma fixed : forall f, In f FS -> fst (mask_field (M f) (run anon_new (map M FS))) = M f.
Proof.
  intros f I. set (k := kind_of f). destruct (masks_seen k FS []) as (j & H & _); [rewrite app_nil_r; reflexivity|].
  assert (IM : In (M f) (map M FS)) by (apply in_map; exact I).
  assert (KM : kind_of (M f) = k) by (apply M_kind; exact I).
  assert (S : In (M f) (first_seen k (map M FS))) by (apply first_seen_In; split; assumption).
  assert (U := S). rewrite H in U. apply upto_in in U. destruct U as (i & L & E).
  rewrite (mask_field_code (M f) i).
  - rewrite KM. exact E.
  - unfold nth_distinct. rewrite first_seen_again by exact IM. rewrite KM, H. split; [lia|].
    unfold upto_code. rewrite nth_error_map. rewrite <- E. rewrite (nth_error_nth' _ 0%nat) by (rewrite seq_length; lia).
    rewrite seq_nth by lia. cbn [option_map]. do 3 f_equal. lia.
Qed.
End Twice.

(** ** A value is determined by its blanked form and its sensitive fields *)
Lemma det_address : forall x y, address_fields x = address_fields y -> x = y.
Proof. destruct x, y; cbn; intros H; congruence. Qed.
Lemma det_typed : forall x y, ren_typed blank x = ren_typed blank y -> typed_fields x = typed_fields y -> x = y.
Proof. destruct x, y; cbn; intros B H; congruence. Qed.
Lemma fields_cons : forall x, exists f, address_fields x = [f].
Proof. destruct x; eexists; reflexivity. Qed.
Lemma det_candidate : forall x y, ren_candidate blank x = ren_candidate blank y ->
  candidate_fields x = candidate_fields y -> x = y.
Proof.
  intros [a1 a2 a3 a4 a5 a6 a7 a8 a9 a10 a11 a12 a13 a14] [b1 b2 b3 b4 b5 b6 b7 b8 b9 b10 b11 b12 b13 b14].
  unfold ren_candidate, candidate_fields. cbn [foundation component transport priority cand_address cand_port c_type raddr rport tcp_type generation ufrag networkcost unknown_extensions].
  intros B H. injection B as B1 B2 B3 B4 B5 B7 B8 B9 B10 B11 B12 B13 B14.
  assert (E5 : address_fields a5 = address_fields b5 /\ [FPort a6] ++ option_fields address_fields a8 ++ option_fields (fun p => [FPort p]) a9 = [FPort b6] ++ option_fields address_fields b8 ++ option_fields (fun p => [FPort p]) b9).
  { destruct (fields_cons a5) as [f F], (fields_cons b5) as [g G]. rewrite F, G in *. split; cbn in *; congruence. }
  destruct E5 as [E5 H']. apply det_address in E5. cbn [app] in H'. injection H' as E6 H'.
  assert (E89 : a8 = b8 /\ a9 = b9).
  { destruct a8 as [x|], b8 as [y|]; try discriminate B8; cbn [option_fields] in H';
      [destruct (fields_cons x) as [f F], (fields_cons y) as [g G]; assert (X := det_address x y); rewrite F, G in *; cbn [app] in H'; injection H' as I H'; rewrite (X (f_equal (fun z => [z]) I))|];
      (split; [reflexivity|]); destruct a9, b9; cbn [option_fields app] in H'; congruence. }
  destruct E89 as [-> ->]. rewrite E5, E6, B1, B2, B3, B4, B7, B10, B11, B12, B13, B14. reflexivity.
Qed.
Lemma det_remote : forall x y, ren_remote blank x = ren_remote blank y ->
  address_fields (rc_address x) ++ [FPort (rc_port x)] = address_fields (rc_address y) ++ [FPort (rc_port y)] -> x = y.
Proof.
  intros [a b c] [a' b' c']. unfold ren_remote. cbn [rc_component rc_address rc_port]. intros B H. injection B as B1 B2.
  destruct (fields_cons b) as [f F], (fields_cons b') as [g G]. assert (X := det_address b b'). rewrite F, G in *. cbn [app] in H. injection H as I J.
  rewrite (X (f_equal (fun z => [z]) I)). congruence.
Qed.
Lemma det_ssrc : forall x y, ren_ssrc blank x = ren_ssrc blank y -> ssrc_fields x = ssrc_fields y -> x = y.
Proof.
  intros [a b c] [a' b' c']. unfold ren_ssrc, ssrc_fields. cbn [ssrc_id ssrc_attribute ssrc_value]. intros B H. injection B as B1 B2 B3. subst.
  destruct b' as [b|]; [|congruence]. destruct (is_cname b); [|congruence].
  destruct c, c'; cbn in *; congruence.
Qed.
Definition special (x : attr) : bool :=
  match x with
  | ACandidate _ | AFingerprint _ | AIcePwd _ | AIceUfrag _ | ARemoteCandidate _ | ASsrc _ => true
  | _ => false
  end.
Lemma special_ren : forall x, special (ren_attr blank x) = special x.
Proof. destruct x; reflexivity. Qed.
Lemma plain_ren : forall x, special x = false -> ren_attr blank x = x.
Proof. destruct x; intros H; solve [reflexivity|discriminate H]. Qed.
Lemma det_attr : forall x y, ren_attr blank x = ren_attr blank y -> attr_fields x = attr_fields y -> x = y.
Proof.
  intros x y B H. assert (K : special x = special y) by (rewrite <- (special_ren x), <- (special_ren y), B; reflexivity).
  destruct (special x) eqn:P; [|rewrite !plain_ren in B by congruence; exact B]. symmetry in K.
  destruct x; try discriminate P; destruct y; try discriminate K; try discriminate B; cbn [ren_attr attr_fields] in *; try congruence.
  - f_equal. apply det_candidate; congruence.
  - match goal with |- AFingerprint ?f = AFingerprint ?g => destruct f as [u1 u2], g as [u3 u4] end. cbn [fp_hash fp_bytes] in *. congruence.
  - f_equal. apply det_remote; congruence.
  - f_equal. apply det_ssrc; congruence.
Qed.
Lemma count_ssrc : forall s, List.length (ssrc_fields (ren_ssrc blank s)) = List.length (ssrc_fields s).
Proof. intros [a [b|] c]; unfold ssrc_fields; cbn; [|reflexivity]. destruct (is_cname b) eqn:Q; destruct c; cbn; reflexivity. Qed.
Lemma count_address : forall x, List.length (address_fields x) = 1%nat.
Proof. destruct x; reflexivity. Qed.
Lemma count_attr : forall x, List.length (attr_fields (ren_attr blank x)) = List.length (attr_fields x).
Proof.
  destruct x; try reflexivity; cbn [ren_attr attr_fields].
  - unfold candidate_fields, ren_candidate. cbn [cand_address cand_port raddr rport]. rewrite !app_length, !count_address.
    destruct (raddr _), (rport _); cbn [option_map option_fields]; rewrite ?count_address; reflexivity.
  - rewrite !app_length, !count_address. reflexivity.
  - apply count_ssrc.
Qed.
Lemma app_same : forall A (a b c d : list A), List.length a = List.length c -> a ++ b = c ++ d -> a = c /\ b = d.
Proof.
  induction a as [|x a IH]; intros b [|y c] d L H; try discriminate L; [split; [reflexivity|exact H]|].
  cbn in H. injection H as -> H. cbn in L. destruct (IH b c d) as [-> ->]; [lia|exact H|split; reflexivity].
Qed.
Lemma det_attrs : forall l m, map (ren_attr blank) l = map (ren_attr blank) m ->
  flat_map attr_fields l = flat_map attr_fields m -> l = m.
Proof.
  induction l as [|x l IH]; intros [|y m] B H; try discriminate B; [reflexivity|]. cbn [map flat_map] in *.
  assert (X : ren_attr blank x = ren_attr blank y) by congruence. assert (Y : map (ren_attr blank) l = map (ren_attr blank) m) by congruence.
  apply app_same in H; [|rewrite <- count_attr, X; apply count_attr]. destruct H as [H1 H2].
  rewrite (det_attr x y X H1), (IH m Y H2). reflexivity.
Qed.
Lemma count_typed : forall x, List.length (typed_fields x) = 1%nat.
Proof. destruct x; reflexivity. Qed.
Lemma det_connection : forall x y, ren_connection blank x = ren_connection blank y ->
  connection_fields x = connection_fields y -> x = y.
Proof.
  intros [a b c] [a' b' c']. unfold ren_connection, connection_fields. cbn [conn_address conn_ttl conn_amount]. intros B H. injection B as B1 B2 B3.
  rewrite (det_typed a a' B1 H). congruence.
Qed.
Lemma det_origin : forall x y, ren_origin blank x = ren_origin blank y -> origin_fields x = origin_fields y -> x = y.
Proof.
  intros [a b c d] [a' b' c' d']. unfold ren_origin, origin_fields. cbn [o_username o_session_id o_session_version o_unicast_addr].
  intros B H. injection B as B1 B2 B3. injection H as H1 H2. rewrite (det_typed d d' B3 H2). congruence.
Qed.
Lemma det_val : forall v w, ren_val blank v = ren_val blank w -> fields v = fields w -> v = w.
Proof.
  intros v w B H. destruct v; destruct w; try discriminate B; cbn [ren_val fields] in *; try congruence.
  - f_equal. apply det_address. exact H.
  - f_equal. apply det_typed; congruence.
  - f_equal. apply det_candidate; congruence.
  - f_equal. apply det_remote; congruence.
  - destruct f as [h b], f0 as [h0 b0]. cbn [fp_hash fp_bytes] in *. congruence.
  - f_equal. apply det_ssrc; congruence.
  - f_equal. apply det_attr; congruence.
  - f_equal. apply det_connection; congruence.
  - f_equal. apply det_origin; congruence.
  - destruct m as [a b c d], m0 as [a' b' c' d']. cbn [m_media m_connection m_bandwidth m_attribute] in *. injection B as B1 B2 B3 B4.
    rewrite (det_attrs d d' B4 H). congruence.
  - destruct s as [a b c d e f g h i], s0 as [a' b' c' d' e' f' g' h' i'].
    cbn [s_version s_origin s_session s_connection s_bandwidth s_timing s_attribute s_media s_warnings] in *.
    assert (B1 : ren_origin blank b = ren_origin blank b') by congruence.
    assert (B2 : option_map (ren_connection blank) d = option_map (ren_connection blank) d') by congruence.
    assert (B3 : map (ren_attr blank) g = map (ren_attr blank) g') by congruence.
    apply app_same in H; [|unfold origin_fields; cbn [List.length]; rewrite !count_typed; reflexivity]. destruct H as [H1 H].
    apply app_same in H; [|destruct d, d'; try discriminate B2; cbn [option_fields]; unfold connection_fields; rewrite ?count_typed; reflexivity]. destruct H as [H2 H3].
    assert (D : d = d').
    { destruct d as [x|], d' as [y|]; try discriminate B2; [|reflexivity]. f_equal. apply det_connection; [cbn in B2; congruence|exact H2]. }
    assert (O := det_origin b b' B1 H1). assert (G := det_attrs g g' B3 H3). congruence.
Qed.

(** ** Clones are regular *)
Lemma clone_ssrc : forall s a, ssrc_regular (fst (mask_ssrc s a)).
Proof.
  intros s a. unfold mask_ssrc, ssrc_regular. destruct (ssrc_attribute s) as [t|] eqn:Q; [|reflexivity].
  destruct (ssrc_value s); [|cbn; congruence]. destruct (str_eqb _ _); [|cbn; congruence].
  destruct (mask_cname _ _). cbn. discriminate.
Qed.
Lemma clone_attr : forall x a, attr_regular (fst (mask_attr x a)).
Proof.
  intros x a. destruct x; cbn [mask_attr]; try exact I; try (match goal with |- attr_regular (fst (let '(_, _) := ?p in _)) => destruct p; exact I end).
  match goal with |- context [mask_ssrc ?s a] => pose proof (clone_ssrc s a) as K; destruct (mask_ssrc s a); exact K end.
Qed.
Lemma clone_attrs : forall l a, Forall attr_regular (fst (mask_attrs l a)).
Proof.
  induction l as [|x l IH]; intros a; cbn [mask_attrs]; [constructor|].
  pose proof (clone_attr x a) as K. destruct (mask_attr x a) as [y b]. specialize (IH b).
  destruct (mask_attrs l b) as [ys c]. constructor; assumption.
Qed.
Lemma clone_val : forall v a, val_regular (fst (mask_val v a)).
Proof.
  intros v a. destruct v; cbn [mask_val]; try (match goal with |- val_regular (fst (let '(_, _) := ?p in _)) => destruct p; exact I end).
  - pose proof (clone_ssrc s a) as K. destruct (mask_ssrc s a). exact K.
  - pose proof (clone_attr x a) as K. destruct (mask_attr x a). exact K.
  - unfold mask_media. pose proof (clone_attrs (m_attribute m) a) as K. destruct (mask_attrs _ a). exact K.
  - unfold mask_session. destruct (mask_origin _ a) as [? b]. destruct (mask_origin _ b) as [? c].
    destruct (match s_connection s with Some _ => _ | None => _ end) as [? d].
    pose proof (clone_attrs (s_attribute s) d) as K. destruct (mask_attrs _ d). cbn. split; [exact K|split; reflexivity].
Qed.

(** ** The theorem *)
Lemma mask_all_app : forall g h a, mask_all (g ++ h) a = mask_all g a ++ mask_all h (after a g).
Proof. induction g as [|v g IH]; intros h a; [reflexivity|]. cbn [app mask_all]. rewrite IH. reflexivity. Qed.
Lemma forall2_map : forall (P : field -> field) l m, Forall2 (fun x y => P x = y) l m -> m = map P l.
Proof. intros P l m H. induction H; cbn; congruence. Qed.
Lemma fields_all : forall h a b, anon_le (after a h) b ->
  flat_map fields (mask_all h a) = map (fun f => fst (mask_field f b)) (flat_map fields h).
Proof.
  induction h as [|v h IH]; intros a b L; [reflexivity|]. cbn [mask_all flat_map]. rewrite map_app. f_equal.
  - apply forall2_map. apply cov_val. eapply anon_le_trans; [apply (after_le h)|exact L].
  - apply IH. exact L.
Qed.
Lemma blank_all : forall h p, map (ren_val blank) (mask_all (mask_all h p) anon_new) = map (ren_val blank) (mask_all h p).
Proof.
  intros h p. assert (G : forall l g, Forall val_regular l -> map (ren_val blank) (mask_all l (after anon_new g)) = map (ren_val blank) l).
  { induction l as [|v l IH]; intros g F; [reflexivity|]. inversion F; subst. cbn [mask_all map]. rewrite masking_keeps by assumption. f_equal.
    rewrite <- (IH (g ++ [v])) by assumption. rewrite after_app. reflexivity. }
  apply (G _ []). revert p. induction h as [|v h IH]; intros p; cbn [mask_all]; constructor; [apply clone_val|apply IH].
Qed.
Lemma count_val : forall v w, ren_val blank v = ren_val blank w -> List.length (fields v) = List.length (fields w).
Proof.
  intros v w B.
  assert (C : forall u, List.length (fields (ren_val blank u)) = List.length (fields u)).
  { assert (A : forall l, List.length (flat_map attr_fields (map (ren_attr blank) l)) = List.length (flat_map attr_fields l)).
    { induction l as [|x l IH]; [reflexivity|]. cbn [map flat_map]. rewrite !app_length, count_attr, IH. reflexivity. }
    destruct u; cbn [ren_val fields]; try reflexivity; rewrite ?count_address, ?count_typed; try reflexivity.
    - exact (count_attr (ACandidate c)).
    - exact (count_attr (ARemoteCandidate c)).
    - apply count_ssrc.
    - apply count_attr.
    - unfold connection_fields. rewrite !count_typed. reflexivity.
    - unfold origin_fields. cbn [List.length]. rewrite !count_typed. reflexivity.
    - apply A.
    - cbn [s_origin s_connection s_attribute]. rewrite !app_length, A. unfold origin_fields. cbn [List.length]. rewrite !count_typed.
      destruct (s_connection s); cbn [option_map option_fields]; unfold connection_fields; rewrite ?count_typed; reflexivity. }
  rewrite <- (C v), <- (C w), B. reflexivity.
Qed.
Lemma det_list : forall l m, map (ren_val blank) l = map (ren_val blank) m -> flat_map fields l = flat_map fields m -> l = m.
Proof.
  induction l as [|x l IH]; intros [|y m] B H; try discriminate B; [reflexivity|]. cbn [map flat_map] in *.
  assert (X : ren_val blank x = ren_val blank y) by congruence. assert (Y : map (ren_val blank) l = map (ren_val blank) m) by congruence.
  apply app_same in H; [|apply count_val; exact X]. destruct H as [H1 H2].
  rewrite (det_val x y X H1), (IH m Y H2). reflexivity.
Qed.
Lemma masking_twice : forall h, mask_all (mask_all h anon_new) anon_new = mask_all h anon_new.
Proof.
  intros h. apply det_list; [apply blank_all|]. set (FS := flat_map fields h).
  assert (Q : flat_map fields (mask_all h anon_new) = map (fun f => fst (mask_field f (run anon_new FS))) FS).
  { apply fields_all. rewrite after_run. apply anon_le_refl. }
  rewrite (fields_all (mask_all h anon_new) anon_new (after anon_new (mask_all h anon_new)) (anon_le_refl _)).
  rewrite after_run, Q, map_map. apply map_ext_in. intros f I. apply fixed. exact I.
Qed.

(** ** Whole documents *)
Lemma medias_all : forall l a, mask_all (map VMedia l) a = map VMedia (mask_medias l a).
Proof.
  induction l as [|m l IH]; intros a; [reflexivity|]. cbn [map mask_all mask_val mask_medias].
  destruct (mask_media m a) as [m' b]. cbn [fst snd map]. rewrite IH. reflexivity.
Qed.
Lemma mask_session_media : forall s a, s_media (fst (mask_session s a)) = [] /\ s_warnings (fst (mask_session s a)) = [].
Proof. intros s a. pose proof (clone_val (VSession s) a) as H. cbn [mask_val] in H. destruct (mask_session s a). destruct H as [_ H]. exact H. Qed.
Lemma mask_session_own : forall s t a, s_version s = s_version t -> s_origin s = s_origin t -> s_session s = s_session t ->
  s_connection s = s_connection t -> s_bandwidth s = s_bandwidth t -> s_timing s = s_timing t -> s_attribute s = s_attribute t ->
  mask_session s a = mask_session t a.
Proof. intros s t a V O N C B T A. unfold mask_session. rewrite V, O, N, C, B, T, A. reflexivity. Qed.
Lemma medias_inj : forall l m, map VMedia l = map VMedia m -> l = m.
Proof. induction l as [|x l IH]; intros [|y m] H; try discriminate H; [reflexivity|]. cbn in H. injection H as -> H. f_equal. apply IH, H. Qed.
Lemma document_twice : forall s, mask_document (mask_document s anon_new) anon_new = mask_document s anon_new.
Proof.
  intros s. pose proof (masking_twice (VSession s :: map VMedia (s_media s))) as K.
  cbn [mask_all mask_val] in K. unfold mask_document at 2 3. pose proof (mask_session_media s anon_new) as W.
  destruct (mask_session s anon_new) as [s' a] eqn:Q. cbn [fst snd] in *. rewrite medias_all in K.
  set (d := Build_session _ _ _ _ _ _ _ _ _).
  assert (D : mask_session d anon_new = mask_session s' anon_new) by (apply mask_session_own; reflexivity).
  unfold mask_document. rewrite D. cbn [mask_all mask_val map] in K. destruct (mask_session s' anon_new) as [s'' b] eqn:Q'. cbn [fst snd] in K.
  rewrite medias_all in K. injection K as K1 K2. apply medias_inj in K2. subst s''. unfold d. cbn [s_media]. rewrite K2. reflexivity.
Qed.

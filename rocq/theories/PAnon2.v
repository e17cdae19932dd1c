(** * The anonymizer numbers distinct values consecutively (C27, C29, C45) *)
From Coq Require Import List NArith ZArith Bool Ascii String Lia Permutation.
From Coq Require Import ZifyBool ZifyNat ZifyN.
From Verif Require Import Str Num Net Types Anon StrLemmas NumLemmas SpecAnon PAnon.
Import ListNotations.
Open Scope N_scope.
Open Scope list_scope.

Definition mask_field (f : field) (a : anon) : field * anon :=
  match f with
  | FHost h => let '(r, a) := mask_host h a in (FHost r, a)
  | FIp i => let '(r, a) := mask_ip i a in (FIp r, a)
  | FPort p => let '(r, a) := mask_port p a in (FPort r, a)
  | FOriginUser u => let '(r, a) := mask_origin_user u a in (FOriginUser r, a)
  | FIcePwd u => let '(r, a) := mask_ice_password u a in (FIcePwd r, a)
  | FIceUser u => let '(r, a) := mask_ice_user u a in (FIceUser r, a)
  | FFp b => let '(r, a) := mask_cert_finger_print b a in (FFp r, a)
  | FCname c => let '(r, a) := mask_cname c a in (FCname r, a)
  end.
Lemma mask_field_val : forall f a,
  mask_val (val_of f) a = (val_of (fst (mask_field f a)), snd (mask_field f a)).
Proof.
  intros f a. destruct f; simpl;
  match goal with |- (let '(_, _) := ?x in _) = _ => destruct x; reflexivity end.
Qed.
Definition run (a : anon) (fs : list field) : anon := fold_left (fun a f => snd (mask_field f a)) fs a.
Lemma run_app : forall fs gs a, run a (fs ++ gs) = run (run a fs) gs.
Proof. intros. unfold run. apply fold_left_app. Qed.

(** ** A call masks exactly the sensitive fields, in order. *)
Lemma run_address : forall x a, snd (mask_address x a) = run a (address_fields x).
Proof. intros [h|i] a; simpl; [destruct (mask_host h a)|destruct (mask_ip i a)]; reflexivity. Qed.
Lemma run_typed : forall x a, snd (mask_typed_address x a) = run a (typed_fields x).
Proof. intros [t h|i] a; simpl; [destruct (mask_host h a)|destruct (mask_ip i a)]; reflexivity. Qed.
Lemma run_port : forall p a, snd (mask_port p a) = run a [FPort p].
Proof. intros. simpl. destruct (mask_port p a). reflexivity. Qed.
Lemma run_candidate : forall c a, snd (mask_candidate c a) = run a (candidate_fields c).
Proof.
  intros c a. unfold mask_candidate, candidate_fields.
  rewrite !run_app. rewrite <- run_address.
  destruct (mask_address (cand_address c) a) as [r1 a1]; simpl snd.
  rewrite <- run_port. destruct (mask_port (cand_port c) a1) as [r2 a2]; simpl snd.
  destruct (raddr c) as [x|]; simpl option_fields.
  - rewrite <- run_address. destruct (mask_address x a2) as [r3 a3]; simpl snd.
    destruct (rport c) as [y|]; simpl option_fields; auto.
    rewrite <- run_port. destruct (mask_port y a3); reflexivity.
  - change (run a2 []) with a2.
    destruct (rport c) as [y|]; simpl option_fields; auto.
    rewrite <- run_port. destruct (mask_port y a2); reflexivity.
Qed.
Lemma run_remote : forall c a, snd (mask_remote_candidate c a) =
  run a (address_fields (rc_address c) ++ [FPort (rc_port c)]).
Proof.
  intros c a. unfold mask_remote_candidate. rewrite run_app, <- run_address.
  destruct (mask_address (rc_address c) a) as [r1 a1]; simpl snd. rewrite <- run_port.
  destruct (mask_port (rc_port c) a1); reflexivity.
Qed.
Lemma run_fingerprint : forall c a, snd (mask_fingerprint c a) = run a [FFp (fp_bytes c)].
Proof.
  intros c a. unfold mask_fingerprint. simpl. destruct (mask_cert_finger_print (fp_bytes c) a). reflexivity.
Qed.
Lemma run_ssrc : forall s a, snd (mask_ssrc s a) = run a (ssrc_fields s).
Proof.
  intros s a. unfold mask_ssrc, ssrc_fields, is_cname.
  destruct (ssrc_attribute s); [|reflexivity]. destruct (ssrc_value s); [|reflexivity].
  match goal with |- context [if ?b then _ else _] => destruct b end; [|reflexivity].
  simpl. destruct (mask_cname l0 a). reflexivity.
Qed.
Lemma run_attr : forall x a, snd (mask_attr x a) = run a (attr_fields x).
Proof.
  intros x b. destruct x; try reflexivity; unfold mask_attr, attr_fields.
  - rewrite <- run_candidate. destruct (mask_candidate a b); reflexivity.
  - rewrite <- run_fingerprint. destruct (mask_fingerprint a b); reflexivity.
  - simpl. destruct (mask_ice_password a b); reflexivity.
  - simpl. destruct (mask_ice_user a b); reflexivity.
  - rewrite <- run_remote. destruct (mask_remote_candidate a b); reflexivity.
  - rewrite <- run_ssrc. destruct (mask_ssrc a b); reflexivity.
Qed.
Lemma run_attrs : forall l a, snd (mask_attrs l a) = run a (flat_map attr_fields l).
Proof.
  induction l as [|x l IH]; intros a; cbn [mask_attrs flat_map]; [reflexivity|].
  rewrite run_app, <- run_attr. destruct (mask_attr x a) as [r a1]. simpl snd.
  rewrite <- IH. destruct (mask_attrs l a1). reflexivity.
Qed.
Lemma run_connection : forall c a, snd (mask_connection c a) = run a (connection_fields c).
Proof.
  intros c a. unfold mask_connection, connection_fields. rewrite <- run_typed.
  destruct (mask_typed_address (conn_address c) a). reflexivity.
Qed.
Lemma run_origin : forall o a, snd (mask_origin o a) = run a (origin_fields o).
Proof.
  intros o a. unfold mask_origin, origin_fields.
  change (FOriginUser (o_username o) :: typed_fields (o_unicast_addr o))
    with ([FOriginUser (o_username o)] ++ typed_fields (o_unicast_addr o)).
  rewrite run_app, <- run_typed. simpl run.
  destruct (mask_origin_user (o_username o) a) as [r a1]. simpl snd.
  destruct (mask_typed_address (o_unicast_addr o) a1). reflexivity.
Qed.
Lemma run_session : forall s a, snd (mask_session s a) = run a (fields (VSession s)).
Proof.
  intros s a. unfold mask_session. cbn [fields]. rewrite !run_app, <- run_origin.
  pose proof (proj2 (good_origin (s_origin s)) a (snd (mask_origin (s_origin s) a)) (anon_le_refl _)) as K.
  destruct (mask_origin (s_origin s) a) as [r a1]. simpl in K |- *. rewrite K.
  destruct (s_connection s) as [c|]; simpl option_fields.
  - rewrite <- run_connection. destruct (mask_connection c a1) as [r2 a2]. simpl snd.
    rewrite <- run_attrs. destruct (mask_attrs (s_attribute s) a2). reflexivity.
  - change (run a1 []) with a1. rewrite <- run_attrs.
    destruct (mask_attrs (s_attribute s) a1). reflexivity.
Qed.
Lemma run_media : forall m a, snd (mask_media m a) = run a (fields (VMedia m)).
Proof.
  intros s a. unfold mask_media. cbn [fields]. rewrite <- run_attrs.
  destruct (mask_attrs (m_attribute s) a). reflexivity.
Qed.
Lemma run_val : forall v a, snd (mask_val v a) = run a (fields v).
Proof.
  intros v a.
  assert (L : forall A (p : A * anon) (C : A -> aval), snd (let '(r, a) := p in (C r, a)) = snd p).
  { intros A [] C. reflexivity. }
  assert (F : forall f, snd (mask_val (val_of f) a) = run a [f]).
  { intros f. rewrite mask_field_val. reflexivity. }
  destruct v; unfold mask_val; try rewrite L; cbn [fields].
  - rewrite <- (F (FHost h)). simpl. rewrite L. reflexivity.
  - rewrite <- (F (FIp i)). simpl. rewrite L. reflexivity.
  - apply run_address.
  - apply run_typed.
  - rewrite <- (F (FPort p)). simpl. rewrite L. reflexivity.
  - rewrite <- (F (FOriginUser u)). simpl. rewrite L. reflexivity.
  - rewrite <- (F (FIcePwd p)). simpl. rewrite L. reflexivity.
  - rewrite <- (F (FIceUser u)). simpl. rewrite L. reflexivity.
  - rewrite <- (F (FFp b)). simpl. rewrite L. reflexivity.
  - rewrite <- (F (FCname c)). simpl. rewrite L. reflexivity.
  - apply run_candidate.
  - apply run_remote.
  - apply run_fingerprint.
  - apply run_ssrc.
  - apply run_attr.
  - apply run_connection.
  - apply run_origin.
  - apply run_media.
  - apply run_session.
Qed.
Lemma after_run : forall h a, after a h = run a (flat_map fields h).
Proof.
  unfold after. induction h as [|v h IH]; intros a; simpl; auto.
  rewrite run_app, <- run_val. apply IH.
Qed.

(** ** Tables *)
Definition is_v4 (e : ip * ip) : bool := match fst e with V4 _ => true | V6 _ => false end.
Definition is_v6 (e : ip * ip) : bool := match fst e with V4 _ => false | V6 _ => true end.
Definition tab (k : kind) (a : anon) : list (field * field) :=
  match k with
  | KHost => map (fun e => (FHost (fst e), FHost (snd e))) (sm_map (an_hosts a))
  | KIp4 => map (fun e => (FIp (fst e), FIp (snd e))) (filter is_v4 (an_ips a))
  | KIp6 => map (fun e => (FIp (fst e), FIp (snd e))) (filter is_v6 (an_ips a))
  | KPort => map (fun e => (FPort (fst e), FPort (snd e))) (an_ports a)
  | KOriginUser => map (fun e => (FOriginUser (fst e), FOriginUser (snd e))) (sm_map (an_origin_users a))
  | KIcePwd => map (fun e => (FIcePwd (fst e), FIcePwd (snd e))) (sm_map (an_ice_passwords a))
  | KIceUser => map (fun e => (FIceUser (fst e), FIceUser (snd e))) (sm_map (an_ice_users a))
  | KFp => map (fun e => (FFp (fst e), FFp (snd e))) (an_fps a)
  | KCname => map (fun e => (FCname (fst e), FCname (snd e))) (sm_map (an_cnames a))
  end.
Definition text_code (prefix : str) (n : N) : str := prefix ++ pad0 8 (show_N (n mod two64)).
Definition code (k : kind) (n : N) : field :=
  match k with
  | KHost => FHost (text_code (lit "fqdn-") n)
  | KIp4 => FIp (V4 (n mod two32))
  | KIp6 => FIp (V6 (n mod two128))
  | KPort => FPort (n mod two32)
  | KOriginUser => FOriginUser (text_code (lit "origin-user-") n)
  | KIcePwd => FIcePwd (text_code (lit "ice-password-") n)
  | KIceUser => FIceUser (text_code (lit "ice-user-") n)
  | KFp => FFp (to_byte_vec (n mod two64))
  | KCname => FCname (text_code (lit "cname-") n)
  end.
Definition len {A} (l : list A) : N := N.of_nat (List.length l).
Definition sm_ok (m : str_map) (prefix : str) : Prop :=
  sm_prefix m = prefix /\ sm_padding m = 8%nat /\ sm_counter m = len (sm_map m) mod two64.
Record Inv (a : anon) : Prop := {
  inv_hosts : sm_ok (an_hosts a) (lit "fqdn-");
  inv_ou : sm_ok (an_origin_users a) (lit "origin-user-");
  inv_pw : sm_ok (an_ice_passwords a) (lit "ice-password-");
  inv_us : sm_ok (an_ice_users a) (lit "ice-user-");
  inv_cn : sm_ok (an_cnames a) (lit "cname-");
  inv_v4 : an_v4 a = len (filter is_v4 (an_ips a)) mod two32;
  inv_v6 : an_v6 a = len (filter is_v6 (an_ips a)) mod two128;
  inv_port : an_port_inc a = len (an_ports a) mod two32;
  inv_fp : an_fp_inc a = len (an_fps a) mod two64
}.
Lemma inv_new : Inv anon_new.
Proof. constructor; try (repeat split; reflexivity); reflexivity. Qed.

Lemma wrap_len : forall A (x : A) (l : list A) M, M <> 0 ->
  wrap_inc M (len l mod M) = len (x :: l) mod M.
Proof.
  intros A x l M H. unfold wrap_inc, len. rewrite N.add_mod_idemp_l by auto.
  cbn [List.length]. rewrite Nat2N.inj_succ, N.add_1_r. reflexivity.
Qed.
Lemma len_map : forall A B (f : A -> B) l, len (map f l) = len l.
Proof. intros. unfold len. rewrite map_length. reflexivity. Qed.
Lemma two64_nz : two64 <> 0. Proof. discriminate. Qed.
Lemma two32_nz : two32 <> 0. Proof. discriminate. Qed.
Lemma two128_nz : two128 <> 0. Proof. discriminate. Qed.

Lemma str_mask_step : forall m prefix v, sm_ok m prefix ->
  sm_ok (snd (str_mask m v)) prefix /\
  ((In (v, fst (str_mask m v)) (sm_map m) /\ snd (str_mask m v) = m) \/
   (~ In v (map fst (sm_map m)) /\ fst (str_mask m v) = text_code prefix (N.succ (len (sm_map m))) /\
    sm_map (snd (str_mask m v)) = (v, fst (str_mask m v)) :: sm_map m)).
Proof.
  intros m prefix v H. unfold str_mask.
  destruct (lookup str_eqb v (sm_map m)) eqn:Hl; simpl.
  - split; auto. left. split; auto. eapply lookup_In; eauto. apply str_eqb_eq.
  - destruct H as [H1 [H2 H3]]. split.
    + unfold sm_ok. simpl. repeat split; auto. rewrite H3. apply wrap_len. apply two64_nz.
    + right. split; [eapply lookup_None; eauto; apply str_eqb_eq|]. split; auto.
      rewrite H1, H2, H3. unfold text_code. rewrite (wrap_len _ (v, v)) by apply two64_nz.
      unfold len. cbn [List.length]. rewrite Nat2N.inj_succ. reflexivity.
Qed.

Definition stepped (f : field) (a : anon) : Prop :=
  let k := kind_of f in
  let r := fst (mask_field f a) in
  let a' := snd (mask_field f a) in
  Inv a' /\
  ((In (f, r) (tab k a) /\ a' = a) \/
   (~ In f (map fst (tab k a)) /\ r = code k (N.succ (len (tab k a))) /\
    tab k a' = (f, r) :: tab k a /\ forall k', k' <> k -> tab k' a' = tab k' a)).

Lemma in_tab_map : forall A B (C : A -> field) (D : B -> field) (m : list (A * B)) x,
  (forall y, C y = C x -> y = x) ->
  (In (C x) (map fst (map (fun e => (C (fst e), D (snd e))) m)) <-> In x (map fst m)).
Proof.
  intros A B C D m x H. rewrite map_map. simpl. rewrite !in_map_iff. split.
  - intros [[y z] [H1 H2]]. simpl in H1. apply H in H1. subst. exists (x, z). auto.
  - intros [[y z] [H1 H2]]. simpl in H1. subst. exists (x, z). auto.
Qed.
Lemma in_tab_pair : forall A B (C : A -> field) (D : B -> field) (m : list (A * B)) x y,
  In (x, y) m -> In (C x, D y) (map (fun e => (C (fst e), D (snd e))) m).
Proof. intros. apply in_map_iff. exists (x, y). auto. Qed.

Lemma step_host : forall h a, Inv a -> stepped (FHost h) a.
Proof.
  intros h a I. pose proof (str_mask_step _ _ h (inv_hosts a I)) as [S1 S2].
  unfold stepped, mask_field, mask_host.
  destruct (str_mask (an_hosts a) h) as [r m] eqn:E. simpl fst in *; simpl snd in *. split.
  - destruct I; constructor; simpl; auto.
  - destruct S2 as [[K1 K2]|[K1 [K2 K3]]].
    + left. split; [|subst m; apply anon_set_hosts_same]. simpl. apply in_tab_pair. auto.
    + right. split; [|split; [|split]].
      * intro Hin. apply K1. simpl in Hin. apply in_tab_map in Hin; auto. intros y Hy; inv Hy; auto.
      * simpl. rewrite len_map. congruence.
      * simpl. rewrite K3. reflexivity.
      * intros [] Hk; try reflexivity; simpl in Hk; congruence.
Qed.
Lemma step_ou : forall h a, Inv a -> stepped (FOriginUser h) a.
Proof.
  intros h a I. pose proof (str_mask_step _ _ h (inv_ou a I)) as [S1 S2].
  unfold stepped, mask_field, mask_origin_user.
  destruct (str_mask (an_origin_users a) h) as [r m] eqn:E. simpl fst in *; simpl snd in *. split.
  - destruct I; constructor; simpl; auto.
  - destruct S2 as [[K1 K2]|[K1 [K2 K3]]].
    + left. split; [|subst m; apply anon_set_ou_same]. simpl. apply in_tab_pair. auto.
    + right. split; [|split; [|split]].
      * intro Hin. apply K1. simpl in Hin. apply in_tab_map in Hin; auto. intros y Hy; inv Hy; auto.
      * simpl. rewrite len_map. congruence.
      * simpl. rewrite K3. reflexivity.
      * intros [] Hk; try reflexivity; simpl in Hk; congruence.
Qed.
Lemma step_pw : forall h a, Inv a -> stepped (FIcePwd h) a.
Proof.
  intros h a I. pose proof (str_mask_step _ _ h (inv_pw a I)) as [S1 S2].
  unfold stepped, mask_field, mask_ice_password.
  destruct (str_mask (an_ice_passwords a) h) as [r m] eqn:E. simpl fst in *; simpl snd in *. split.
  - destruct I; constructor; simpl; auto.
  - destruct S2 as [[K1 K2]|[K1 [K2 K3]]].
    + left. split; [|subst m; apply anon_set_pw_same]. simpl. apply in_tab_pair. auto.
    + right. split; [|split; [|split]].
      * intro Hin. apply K1. simpl in Hin. apply in_tab_map in Hin; auto. intros y Hy; inv Hy; auto.
      * simpl. rewrite len_map. congruence.
      * simpl. rewrite K3. reflexivity.
      * intros [] Hk; try reflexivity; simpl in Hk; congruence.
Qed.
Lemma step_us : forall h a, Inv a -> stepped (FIceUser h) a.
Proof.
  intros h a I. pose proof (str_mask_step _ _ h (inv_us a I)) as [S1 S2].
  unfold stepped, mask_field, mask_ice_user.
  destruct (str_mask (an_ice_users a) h) as [r m] eqn:E. simpl fst in *; simpl snd in *. split.
  - destruct I; constructor; simpl; auto.
  - destruct S2 as [[K1 K2]|[K1 [K2 K3]]].
    + left. split; [|subst m; apply anon_set_us_same]. simpl. apply in_tab_pair. auto.
    + right. split; [|split; [|split]].
      * intro Hin. apply K1. simpl in Hin. apply in_tab_map in Hin; auto. intros y Hy; inv Hy; auto.
      * simpl. rewrite len_map. congruence.
      * simpl. rewrite K3. reflexivity.
      * intros [] Hk; try reflexivity; simpl in Hk; congruence.
Qed.
Lemma step_cn : forall h a, Inv a -> stepped (FCname h) a.
Proof.
  intros h a I. pose proof (str_mask_step _ _ h (inv_cn a I)) as [S1 S2].
  unfold stepped, mask_field, mask_cname.
  destruct (str_mask (an_cnames a) h) as [r m] eqn:E. simpl fst in *; simpl snd in *. split.
  - destruct I; constructor; simpl; auto.
  - destruct S2 as [[K1 K2]|[K1 [K2 K3]]].
    + left. split; [|subst m; apply anon_set_cn_same]. simpl. apply in_tab_pair. auto.
    + right. split; [|split; [|split]].
      * intro Hin. apply K1. simpl in Hin. apply in_tab_map in Hin; auto. intros y Hy; inv Hy; auto.
      * simpl. rewrite len_map. congruence.
      * simpl. rewrite K3. reflexivity.
      * intros [] Hk; try reflexivity; simpl in Hk; congruence.
Qed.
Lemma len_cons : forall A (x : A) l, len (x :: l) = N.succ (len l).
Proof. intros. unfold len. cbn [List.length]. rewrite Nat2N.inj_succ. auto. Qed.
Lemma step_port : forall p a, Inv a -> stepped (FPort p) a.
Proof.
  intros p a I. unfold stepped, mask_field, mask_port.
  destruct (lookup N.eqb p (an_ports a)) as [x|] eqn:E; simpl fst; simpl snd.
  - split; auto. left. split; auto. simpl. apply in_tab_pair.
    eapply lookup_In; eauto. apply N.eqb_eq.
  - apply lookup_None in E; [|apply N.eqb_eq].
    assert (C : wrap_inc two32 (an_port_inc a) = N.succ (len (an_ports a)) mod two32).
    { rewrite (inv_port a I), (wrap_len _ (p, p)), len_cons by apply two32_nz. auto. }
    split.
    + destruct I; constructor; simpl; auto. rewrite len_cons. auto.
    + right. split; [|split; [|split]].
      * intro Hin. apply E. simpl in Hin. apply in_tab_map in Hin; auto. intros y Hy; inv Hy; auto.
      * simpl. rewrite len_map. congruence.
      * reflexivity.
      * intros [] Hk; try reflexivity; simpl in Hk; congruence.
Qed.
Lemma step_fp : forall p a, Inv a -> stepped (FFp p) a.
Proof.
  intros p a I. unfold stepped, mask_field, mask_cert_finger_print.
  destruct (lookup bytes_eqb p (an_fps a)) as [x|] eqn:E; simpl fst; simpl snd.
  - split; auto. left. split; auto. simpl. apply in_tab_pair.
    eapply lookup_In; eauto. apply str_eqb_eq.
  - apply lookup_None in E; [|apply str_eqb_eq].
    assert (C : wrap_inc two64 (an_fp_inc a) = N.succ (len (an_fps a)) mod two64).
    { rewrite (inv_fp a I), (wrap_len _ (p, p)), len_cons by apply two64_nz. auto. }
    split.
    + destruct I; constructor; simpl; auto. rewrite len_cons. auto.
    + right. split; [|split; [|split]].
      * intro Hin. apply E. simpl in Hin. apply in_tab_map in Hin; auto. intros y Hy; inv Hy; auto.
      * cbn [kind_of tab code]. rewrite len_map. congruence.
      * reflexivity.
      * intros [] Hk; try reflexivity; simpl in Hk; congruence.
Qed.
Lemma step_ip : forall p a, Inv a -> stepped (FIp p) a.
Proof.
  intros p a I. unfold stepped, mask_field, mask_ip.
  destruct (lookup ip_eqb p (an_ips a)) as [x|] eqn:E.
  - simpl fst; simpl snd. split; auto. left. split; auto.
    apply lookup_In in E; [|apply ip_eqb_eq].
    destruct p; simpl; apply in_tab_pair; apply filter_In; auto.
  - apply lookup_None in E; [|apply ip_eqb_eq].
    assert (NI : forall g, (forall e, g e = true -> True) -> ~ In p (map fst (filter g (an_ips a)))).
    { intros g _ Hin. apply E. apply in_map_iff in Hin. destruct Hin as [e [H1 H2]].
      apply filter_In in H2. apply in_map_iff. exists e. tauto. }
    destruct p as [p|p]; simpl fst; simpl snd.
    + assert (C : wrap_inc two32 (an_v4 a) = N.succ (len (filter is_v4 (an_ips a))) mod two32).
      { rewrite (inv_v4 a I), (wrap_len _ (V4 p, V4 p)), len_cons by apply two32_nz. auto. }
      split.
      * destruct I; constructor; simpl; auto. rewrite len_cons. auto.
      * right. split; [|split; [|split]].
        -- intro Hin. eapply (NI is_v4); auto. cbn [kind_of tab] in Hin.
           apply in_tab_map in Hin; eauto. intros y Hy; inv Hy; auto.
        -- cbn [kind_of tab code]. rewrite len_map. congruence.
        -- reflexivity.
        -- intros [] Hk; try reflexivity; simpl in Hk; congruence.
    + assert (C : wrap_inc two128 (an_v6 a) = N.succ (len (filter is_v6 (an_ips a))) mod two128).
      { rewrite (inv_v6 a I), (wrap_len _ (V4 p, V4 p)), len_cons by apply two128_nz. auto. }
      split.
      * destruct I; constructor; simpl; auto. rewrite len_cons. auto.
      * right. split; [|split; [|split]].
        -- intro Hin. eapply (NI is_v6); auto. cbn [kind_of tab] in Hin.
           apply in_tab_map in Hin; eauto. intros y Hy; inv Hy; auto.
        -- cbn [kind_of tab code]. rewrite len_map. congruence.
        -- reflexivity.
        -- intros [] Hk; try reflexivity; simpl in Hk; congruence.
Qed.
Lemma step_any : forall f a, Inv a -> stepped f a.
Proof.
  intros [] a I.
  - apply step_host; auto.
  - apply step_ip; auto.
  - apply step_port; auto.
  - apply step_ou; auto.
  - apply step_pw; auto.
  - apply step_us; auto.
  - apply step_fp; auto.
  - apply step_cn; auto.
Qed.

(** ** Tables list the distinct values in order, with consecutive codes *)
Fixpoint coded (k : kind) (m : list (field * field)) : Prop :=
  match m with
  | [] => True
  | (_, g) :: m' => g = code k (N.succ (len m')) /\ coded k m'
  end.
Lemma first_seen_snoc : forall k l f, first_seen k (l ++ [f]) =
  if kind_eq_dec (kind_of f) k then
    if in_dec field_eq_dec f (first_seen k l) then first_seen k l else first_seen k l ++ [f]
  else first_seen k l.
Proof. intros. unfold first_seen at 1. rewrite fold_left_app. reflexivity. Qed.
Lemma tables : forall fs k, let a := run anon_new fs in
  Inv a /\ rev (map fst (tab k a)) = first_seen k fs /\ coded k (tab k a).
Proof.
  induction fs as [|f fs IH] using rev_ind; intros k a.
  - split; [apply inv_new|]. destruct k; repeat split.
  - subst a. rewrite run_app. pose proof (IH k) as [I [IH1 IH2]].
    pose proof (step_any f _ I) as [S1 S2].
    change (run (run anon_new fs) [f]) with (snd (mask_field f (run anon_new fs))).
    split; auto. rewrite first_seen_snoc.
    destruct (kind_eq_dec (kind_of f) k) as [E|E].
    + subst k. destruct S2 as [[K1 K2]|[K1 [K2 [K3 _]]]].
      * rewrite K2. split; auto.
        destruct (in_dec field_eq_dec f (first_seen (kind_of f) fs)) as [_|N]; auto.
        exfalso. apply N. rewrite <- IH1, <- in_rev. apply in_map_iff. eexists; split; eauto. auto.
      * rewrite K3. cbn [map fst rev coded]. rewrite IH1. split.
        -- destruct (in_dec field_eq_dec f (first_seen (kind_of f) fs)) as [Y|_]; auto.
           exfalso. apply K1. rewrite <- IH1, <- in_rev in Y. auto.
        -- split; auto.
    + destruct S2 as [[K1 K2]|[K1 [K2 [K3 K4]]]].
      * rewrite K2. auto.
      * rewrite K4 by auto. auto.
Qed.
Lemma coded_nth : forall k m i f g, coded k m -> nth_error (rev m) i = Some (f, g) ->
  g = code k (N.of_nat (S i)).
Proof.
  induction m as [|[f' g'] m IH]; intros i f g H H1.
  - destruct i; discriminate.
  - simpl in H. destruct H as [H2 H3]. simpl in H1.
    destruct (Nat.lt_ge_cases i (List.length (rev m))) as [L|L].
    + rewrite nth_error_app1 in H1 by auto. eauto.
    + rewrite nth_error_app2 in H1 by auto.
      destruct (i - List.length (rev m))%nat eqn:E; simpl in H1; [|destruct n; discriminate].
      inv H1. f_equal. unfold len. rewrite rev_length in *. lia.
Qed.
Lemma first_seen_NoDup : forall k l, NoDup (first_seen k l).
Proof.
  intros k l. induction l as [|f l IH] using rev_ind; [constructor|].
  rewrite first_seen_snoc. destruct (kind_eq_dec (kind_of f) k); auto.
  destruct (in_dec field_eq_dec f (first_seen k l)); auto.
  apply (Permutation_NoDup (l := f :: first_seen k l)).
  - apply Permutation_cons_append.
  - constructor; auto.
Qed.
Lemma first_seen_In : forall k l f, In f (first_seen k l) <-> In f l /\ kind_of f = k.
Proof.
  intros k l f. induction l as [|x l IH] using rev_ind; [simpl; tauto|].
  rewrite first_seen_snoc, in_app_iff. simpl.
  destruct (kind_eq_dec (kind_of x) k) as [E|E].
  - destruct (in_dec field_eq_dec x (first_seen k l)) as [Y|Y].
    + rewrite IH. split; [tauto|]. intros [[H|[H|[]]] H1]; auto. subst x. apply IH. auto.
    + rewrite in_app_iff, IH. simpl. split; [|tauto].
      intros [H|[H|[]]]; [tauto|]. subst. tauto.
  - rewrite IH. split; [tauto|]. intros [[H|[H|[]]] H1]; auto. subst. congruence.
Qed.
Lemma first_seen_distinct : forall k l, len (first_seen k l) = distinct k l.
Proof.
  intros k l. unfold distinct, len. f_equal.
  apply Permutation_length, NoDup_Permutation.
  - apply first_seen_NoDup.
  - apply NoDup_nodup.
  - intros f. rewrite nodup_In, filter_In, first_seen_In.
    destruct (kind_eq_dec (kind_of f) k); intuition congruence.
Qed.
Lemma mask_field_code : forall f n fs, nth_distinct f n (fs ++ [f]) ->
  fst (mask_field f (run anon_new fs)) = code (kind_of f) (N.of_nat n).
Proof.
  intros f n fs [Hn H].
  pose proof (tables fs (kind_of f)) as [I [T1 T2]].
  pose proof (tables (fs ++ [f]) (kind_of f)) as [I' [T1' T2']].
  pose proof (step_any f _ I) as [S1 S2].
  rewrite run_app in *. change (run (run anon_new fs) [f]) with (snd (mask_field f (run anon_new fs))) in *.
  set (a := run anon_new fs) in *. set (a' := snd (mask_field f a)) in *.
  rewrite <- T1', <- map_rev in H.
  assert (Hin : In (f, fst (mask_field f a)) (tab (kind_of f) a')).
  { destruct S2 as [[K1 K2]|[K1 [K2 [K3 _]]]].
    - fold a' in K2. rewrite K2. auto.
    - fold a' in K3. rewrite K3. simpl. auto. }
  apply in_rev in Hin. apply In_nth_error in Hin. destruct Hin as [i Hi].
  assert (i = n - 1)%nat.
  { assert (ND : NoDup (map fst (rev (tab (kind_of f) a')))).
    { rewrite map_rev, T1'. apply first_seen_NoDup. }
    rewrite NoDup_nth_error in ND. apply ND.
    - apply nth_error_Some. rewrite nth_error_map, Hi. discriminate.
    - rewrite H, nth_error_map, Hi. reflexivity. }
  subst i. apply (coded_nth (kind_of f)) in Hi; auto. rewrite Hi. f_equal. f_equal. lia.
Qed.

(** ** Codes *)
Lemma mod_range_inj : forall M i j, M <> 0 -> 1 <= i <= M -> 1 <= j <= M -> i mod M = j mod M -> i = j.
Proof.
  intros M i j HM Hi Hj H.
  assert (forall x, 1 <= x <= M -> x mod M = if x =? M then 0 else x).
  { intros x Hx. destruct (N.eqb_spec x M).
    - subst. apply N.mod_same. auto.
    - apply N.mod_small. lia. }
  rewrite !H0 in H by auto. destruct (N.eqb_spec i M), (N.eqb_spec j M); lia.
Qed.
Lemma byte_vec_zero : forall n, byte_vec_loop n 0 = repeat 0 n.
Proof. induction n; simpl; auto. f_equal. exact IHn. Qed.
Lemma byte_shift : forall x, (x * two8) mod two64 mod two8 = 0.
Proof.
  intros x. change two64 with (two8 * 72057594037927936). unfold two8.
  rewrite (N.mul_comm x). rewrite N.mul_mod_distr_l by lia. rewrite N.mul_comm.
  apply N.mod_mul. lia.
Qed.
Lemma to_byte_vec_val : forall n, to_byte_vec n = [0; 0; 0; 0; 0; 0; 0; n mod 256].
Proof.
  intros n. unfold to_byte_vec. cbn [byte_vec_loop]. rewrite !byte_shift. reflexivity.
Qed.
Lemma map_repeat0 : forall n, repeat 48 n = map digit_lower (repeat 0 n).
Proof. induction n as [|n IH]; [reflexivity|]. cbn [repeat map]. rewrite IH. reflexivity. Qed.
Lemma pad0_show_inj : forall n m, pad0 8 (show_N n) = pad0 8 (show_N m) -> n = m.
Proof.
  intros n m H.
  assert (K : forall x, exists ds, pad0 8 (show_N x) = map digit_lower ds /\
            Forall (fun d => d < 10) ds /\ pos_value 10 ds = x).
  { intros x. destruct (show_radix_spec digit_lower 10 x ltac:(lia)) as [ds [H1 [H2 [H3 _]]]].
    exists (repeat 0 (8 - List.length (show_N x)) ++ ds). unfold pad0. split; [|split].
    - rewrite map_app. f_equal; auto. apply map_repeat0.
    - apply Forall_app. split; auto. apply Forall_forall. intros y Hy. apply repeat_spec in Hy. lia.
    - rewrite pos_value_repeat0. auto. }
  destruct (K n) as [d1 [A1 [A2 A3]]], (K m) as [d2 [B1 [B2 B3]]].
  rewrite A1, B1 in H. rewrite <- A3, <- B3. f_equal.
  clear -H A2 B2. revert d2 H B2. induction A2 as [|x l Hx A2 IH]; intros d2 H B2.
  - destruct d2; [auto|discriminate].
  - destruct d2 as [|y d2]; [discriminate|]. inv B2. simpl in H. inversion H as [[H4 H5]]. f_equal.
    + unfold digit_lower in H4. destruct (N.ltb_spec x 10), (N.ltb_spec y 10); lia.
    + auto.
Qed.
Lemma text_code_inj : forall p n m, text_code p n = text_code p m -> n mod two64 = m mod two64.
Proof. intros p n m H. apply app_inv_head in H. apply pad0_show_inj. auto. Qed.
Lemma cap64 : 2 ^ 64 = two64. Proof. reflexivity. Qed.
Lemma cap32 : 2 ^ 32 = two32. Proof. reflexivity. Qed.
Lemma cap128 : 2 ^ 128 = two128. Proof. reflexivity. Qed.
Lemma FIp4_inj : forall x y, FIp (V4 x) = FIp (V4 y) -> x = y. Proof. intros x y H. inversion H. auto. Qed.
Lemma FIp6_inj : forall x y, FIp (V6 x) = FIp (V6 y) -> x = y. Proof. intros x y H. inversion H. auto. Qed.
Lemma FPort_inj : forall x y, FPort x = FPort y -> x = y. Proof. intros x y H. inversion H. auto. Qed.
Lemma FFp_inj : forall x y, FFp x = FFp y -> x = y. Proof. intros x y H. inversion H. auto. Qed.
Lemma code_inj : forall k i j, 1 <= i <= capacity k -> 1 <= j <= capacity k ->
  code k i = code k j -> i = j.
Proof.
  assert (T : forall p i j, 1 <= i <= 2 ^ 64 -> 1 <= j <= 2 ^ 64 ->
              text_code p i = text_code p j -> i = j).
  { intros p i j Hi Hj H. rewrite cap64 in *. apply text_code_inj in H.
    revert H. apply mod_range_inj; auto using two64_nz. }
  intros k i j Hi Hj H.
  destruct k; cbn [code capacity] in *.
  - apply (T (lit "fqdn-")); auto. generalize dependent (text_code (lit "fqdn-") i). congruence.
  - rewrite cap32 in *. apply FIp4_inj in H. revert H. apply mod_range_inj; auto using two32_nz.
  - rewrite cap128 in *. apply FIp6_inj in H. revert H. apply mod_range_inj; auto using two128_nz.
  - rewrite cap32 in *. apply FPort_inj in H. revert H. apply mod_range_inj; auto using two32_nz.
  - apply (T (lit "origin-user-")); auto. congruence.
  - apply (T (lit "ice-password-")); auto. congruence.
  - apply (T (lit "ice-user-")); auto. congruence.
  - apply FFp_inj in H. rewrite !to_byte_vec_val in H. injection H as H.
    change (2 ^ 8) with 256 in *. rewrite !(N.mod_small _ two64) in H by (unfold two64; lia).
    revert H. apply mod_range_inj; auto. discriminate.
  - apply (T (lit "cname-")); auto. congruence.
Qed.
Lemma val_of_inj : forall f g, val_of f = val_of g -> f = g.
Proof. intros [] []; simpl; intros H; inversion H; auto. Qed.
Lemma seen_nth : forall f l, In f l -> exists n, nth_distinct f n l /\
  N.of_nat n <= distinct (kind_of f) l.
Proof.
  intros f l H.
  assert (K : In f (first_seen (kind_of f) l)) by (apply first_seen_In; auto).
  apply In_nth_error in K. destruct K as [n K]. exists (S n). split.
  - split; [lia|]. replace (S n - 1)%nat with n by lia. auto.
  - rewrite <- first_seen_distinct. unfold len.
    assert (n < List.length (first_seen (kind_of f) l))%nat by (apply nth_error_Some; congruence). lia.
Qed.
Lemma first_seen_again : forall f l, In f l -> first_seen (kind_of f) (l ++ [f]) = first_seen (kind_of f) l.
Proof.
  intros f l H. rewrite first_seen_snoc. destruct (kind_eq_dec _ _); auto.
  destruct (in_dec _ _ _) as [_|N]; auto. exfalso. apply N. apply first_seen_In. auto.
Qed.
Lemma masks_distinct_fs : forall fs f1 f2, In f1 fs -> In f2 fs ->
  kind_of f1 = kind_of f2 -> f1 <> f2 -> distinct (kind_of f1) fs <= capacity (kind_of f1) ->
  fst (mask_field f1 (run anon_new fs)) <> fst (mask_field f2 (run anon_new fs)).
Proof.
  intros fs f1 f2 H1 H2 Hk Hne Hd Heq.
  destruct (seen_nth f1 fs H1) as [n1 [N1 B1]]. destruct (seen_nth f2 fs H2) as [n2 [N2 B2]].
  rewrite (mask_field_code f1 n1) in Heq
    by (unfold nth_distinct in *; rewrite first_seen_again by auto; auto).
  rewrite (mask_field_code f2 n2) in Heq
    by (unfold nth_distinct in *; rewrite first_seen_again by auto; auto).
  rewrite <- Hk in *.
  apply code_inj in Heq; [|destruct N1; lia|destruct N2; lia]. apply Nat2N.inj in Heq. subst n2.
  apply Hne. destruct N1 as [_ N1], N2 as [_ N2]. rewrite <- Hk in N2. congruence.
Qed.
Lemma fields_val_of : forall f, fields (val_of f) = [f].
Proof. destruct f; reflexivity. Qed.
Lemma after_app : forall x y a, after a (x ++ y) = after (after a x) y.
Proof. intros. unfold after. apply fold_left_app. Qed.
Lemma after_one : forall v a, after a [v] = snd (mask_val v a).
Proof. reflexivity. Qed.
(** Two different values of one kind, masked at any two points of a history. *)
Lemma masks_distinct : forall h1 f1 h2 f2,
  kind_of f1 = kind_of f2 -> f1 <> f2 ->
  distinct (kind_of f1) (flat_map fields (h1 ++ [val_of f1] ++ h2 ++ [val_of f2])) <=
    capacity (kind_of f1) ->
  fst (mask_val (val_of f1) (after anon_new h1)) <>
  fst (mask_val (val_of f2) (after anon_new (h1 ++ [val_of f1] ++ h2))).
Proof.
  intros h1 f1 h2 f2 Hk Hne Hd Heq.
  set (h := h1 ++ [val_of f1] ++ h2 ++ [val_of f2]) in *.
  assert (A1 : fst (mask_val (val_of f1) (after anon_new h1)) =
               fst (mask_val (val_of f1) (after anon_new h))).
  { rewrite <- (masking_stable (after anon_new h1) (val_of f1) (h2 ++ [val_of f2])).
    unfold h. rewrite !after_app, !after_one. reflexivity. }
  assert (A2 : fst (mask_val (val_of f2) (after anon_new (h1 ++ [val_of f1] ++ h2))) =
               fst (mask_val (val_of f2) (after anon_new h))).
  { rewrite <- (masking_stable _ (val_of f2) []). unfold h.
    rewrite !after_app, !after_one. reflexivity. }
  rewrite A1, A2, !mask_field_val, !after_run in Heq. simpl fst in Heq. apply val_of_inj in Heq.
  revert Heq. apply masks_distinct_fs; auto; unfold h; rewrite !flat_map_app;
    cbn [flat_map]; rewrite !fields_val_of, !in_app_iff; simpl; tauto.
Qed.

(** ** C29, C45 *)
Lemma decimal_value_app : forall s acc,
  fold_left (fun acc c => 10 * acc + (c - 48)) s acc =
  acc * 10 ^ N.of_nat (List.length s) + decimal_value s.
Proof.
  unfold decimal_value. induction s as [|c s IH]; intros acc; cbn [fold_left List.length].
  - simpl. lia.
  - rewrite IH, (IH (10 * 0 + (c - 48))). rewrite Nat2N.inj_succ, N.pow_succ_r'. ring.
Qed.
Lemma decimal_value_pos : forall ds, Forall (fun d => d < 10) ds ->
  decimal_value (map digit_lower ds) = pos_value 10 ds.
Proof.
  intros ds H. induction H as [|d ds Hd H IH]; [reflexivity|].
  cbn [map pos_value]. unfold decimal_value. cbn [fold_left]. rewrite decimal_value_app, IH, map_length.
  unfold digit_lower. destruct (N.ltb_spec d 10); [|lia].
  replace (10 * 0 + (48 + d - 48)) with d by lia. reflexivity.
Qed.
Lemma text_code_numbered : forall p n, numbered p (n mod 2 ^ 64) (text_code p n).
Proof.
  intros p n. unfold text_code. rewrite cap64. generalize (n mod two64) as x. clear n.
  intros x. exists (pad0 8 (show_N x)). split; auto.
  destruct (show_radix_spec digit_lower 10 x ltac:(lia)) as [ds [H1 [H2 [H3 H4]]]].
  fold (show_N x) in H1. rewrite H1. unfold pad0. rewrite map_length.
  assert (E : repeat 48 (8 - List.length ds) ++ map digit_lower ds =
              map digit_lower (repeat 0 (8 - List.length ds) ++ ds)).
  { rewrite map_app. f_equal. apply map_repeat0. }
  assert (F : Forall (fun d => d < 10) (repeat 0 (8 - List.length ds) ++ ds)).
  { apply Forall_app. split; auto. apply Forall_forall. intros y Hy. apply repeat_spec in Hy. lia. }
  split; [|split].
  - rewrite E. apply Forall_map. revert F. apply Forall_impl. intros d Hd. unfold digit_lower.
    destruct (N.ltb_spec d 10); lia.
  - rewrite E, decimal_value_pos by auto. rewrite pos_value_repeat0. auto.
  - destruct (Nat.le_gt_cases (List.length ds) 8) as [L|L].
    + left. rewrite app_length, repeat_length, map_length. lia.
    + right. replace (8 - List.length ds)%nat with 0%nat by lia. simpl. rewrite map_length. split; auto.
      destruct H4 as [_ [H4|[d [t [H4 H5]]]]]; [lia|]. subst ds. simpl. do 2 eexists. split; eauto.
      inv H2. unfold digit_lower. destruct (N.ltb_spec d 10); lia.
Qed.
Lemma code_is_code : forall k n, is_code k n (code k n).
Proof.
  intros k n. destruct k; cbn [code is_code]; try apply text_code_numbered; try reflexivity.
  rewrite to_byte_vec_val. change (2 ^ 8) with 256.
  assert (E : (n mod two64) mod 256 = n mod 256).
  { change two64 with (256 * 72057594037927936). rewrite N.mod_mul_r by discriminate.
    rewrite (N.mul_comm 256), N.mod_add by discriminate. apply N.mod_mod. discriminate. }
  rewrite E. reflexivity.
Qed.
Lemma mask_exact : forall h f n, nth_distinct f n (flat_map fields h ++ [f]) ->
  exists g, fst (mask_val (val_of f) (after anon_new h)) = val_of g /\
            is_code (kind_of f) (N.of_nat n) g.
Proof.
  intros h f n H. rewrite mask_field_val, after_run. simpl fst. eexists. split; eauto.
  rewrite (mask_field_code f n) by auto. apply code_is_code.
Qed.
Lemma nth_distinct_ex : forall f l, In f l -> exists n, nth_distinct f n l.
Proof. intros f l H. destruct (seen_nth f l H) as [n [H1 _]]. eauto. Qed.
Lemma code_kind : forall k n g, is_code k n g -> kind_of g = k.
Proof. intros k n g. destruct k, g as [| [|] | | | | | |]; simpl; try tauto; auto. Qed.
Lemma mask_keeps_kind : forall h f, exists g, fst (mask_val (val_of f) (after anon_new h)) = val_of g /\
  kind_of g = kind_of f /\ exists n, is_code (kind_of f) n g.
Proof.
  intros h f. destruct (nth_distinct_ex f (flat_map fields h ++ [f])) as [n Hn].
  { apply in_or_app. simpl. auto. }
  destruct (mask_exact h f n Hn) as [g [H1 H2]]. pose proof (code_kind _ _ _ H2). exists g. split; auto. split; eauto.
Qed.

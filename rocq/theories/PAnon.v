(** * Proofs about the anonymizer *)
From Coq Require Import List NArith ZArith Bool Ascii String Lia.
From Coq Require Import ZifyBool ZifyNat ZifyN.
From Verif Require Import Str Num Net Types Anon StrLemmas NumLemmas SpecAnon.
Import ListNotations.
Open Scope N_scope.
Open Scope list_scope.

Lemma ip_eqb_eq : forall a b, ip_eqb a b = true <-> a = b.
Proof.
  destruct a as [x|x], b as [y|y]; simpl; split; intros H; try discriminate.
  - apply N.eqb_eq in H. congruence.
  - inv H. apply N.eqb_refl.
  - apply N.eqb_eq in H. congruence.
  - inv H. apply N.eqb_refl.
Qed.

(** ** Stability *)
Section Maps.
Context {K V : Type} (eqb : K -> K -> bool).
Hypothesis eqb_ok : forall x y, eqb x y = true <-> x = y.
Lemma lookup_In : forall k (m : list (K * V)) v, lookup eqb k m = Some v -> In (k, v) m.
Proof.
  intros k m v. induction m as [|[k' v'] m IH]; simpl; [discriminate|].
  destruct (eqb k k') eqn:H; intros H1.
  - apply eqb_ok in H. inv H1. auto.
  - auto.
Qed.
Lemma lookup_None : forall k (m : list (K * V)), lookup eqb k m = None <-> ~ In k (map fst m).
Proof.
  intros k m. induction m as [|[k' v'] m IH]; simpl; [tauto|].
  destruct (eqb k k') eqn:H.
  - apply eqb_ok in H. split; [discriminate|]. intros H1. exfalso. apply H1. auto.
  - rewrite IH. split.
    + intros H1 [H2|H2]; auto. subst. assert (eqb k k = true) by (apply eqb_ok; auto). congruence.
    + tauto.
Qed.
Lemma lookup_cons : forall k v (m : list (K * V)), lookup eqb k ((k, v) :: m) = Some v.
Proof. intros. simpl. assert (eqb k k = true) as -> by (apply eqb_ok; auto). auto. Qed.
Lemma lookup_extend : forall k v (m : list (K * V)) k' v', lookup eqb k m = None ->
  lookup eqb k' m = Some v' -> lookup eqb k' ((k, v) :: m) = Some v'.
Proof.
  intros k v m k' v' H H1. simpl. destruct (eqb k' k) eqn:H2; auto.
  apply eqb_ok in H2. congruence.
Qed.
End Maps.

Definition le_map {K V} (eqb : K -> K -> bool) (m m' : list (K * V)) : Prop :=
  forall k v, lookup eqb k m = Some v -> lookup eqb k m' = Some v.
Record anon_le (a b : anon) : Prop := {
  le_ips : le_map ip_eqb (an_ips a) (an_ips b);
  le_hosts : le_map str_eqb (sm_map (an_hosts a)) (sm_map (an_hosts b));
  le_ports : le_map N.eqb (an_ports a) (an_ports b);
  le_ou : le_map str_eqb (sm_map (an_origin_users a)) (sm_map (an_origin_users b));
  le_pw : le_map str_eqb (sm_map (an_ice_passwords a)) (sm_map (an_ice_passwords b));
  le_us : le_map str_eqb (sm_map (an_ice_users a)) (sm_map (an_ice_users b));
  le_fps : le_map bytes_eqb (an_fps a) (an_fps b);
  le_cn : le_map str_eqb (sm_map (an_cnames a)) (sm_map (an_cnames b))
}.
Lemma le_map_refl : forall K V eqb (m : list (K * V)), le_map eqb m m.
Proof. unfold le_map. auto. Qed.
Lemma anon_le_refl : forall a, anon_le a a.
Proof. intros. constructor; apply le_map_refl. Qed.
Lemma anon_le_trans : forall a b c, anon_le a b -> anon_le b c -> anon_le a c.
Proof.
  intros a b c [] []. constructor; unfold le_map in *; auto.
Qed.

Definition good {A} (f : anon -> A * anon) : Prop :=
  (forall a, anon_le a (snd (f a))) /\
  (forall a b, anon_le (snd (f a)) b -> f b = (fst (f a), b)).
Lemma good_ret : forall A (x : A), good (fun a => (x, a)).
Proof. intros. split; intros; simpl; auto. apply anon_le_refl. Qed.
Lemma good_bind : forall A B (f : anon -> A * anon) (g : A -> anon -> B * anon),
  good f -> (forall x, good (g x)) -> good (fun a => let '(x, a') := f a in g x a').
Proof.
  intros A B f g [Hf1 Hf2] Hg. split.
  - intros a. specialize (Hf1 a). destruct (f a) as [x a']. simpl in Hf1.
    eapply anon_le_trans; [apply Hf1|apply Hg].
  - intros a b H. specialize (Hf1 a). specialize (Hf2 a).
    destruct (f a) as [x a']. simpl in *. destruct (Hg x) as [Hg1 Hg2].
    rewrite Hf2 by (eapply anon_le_trans; [apply Hg1|auto]). apply Hg2. auto.
Qed.

Lemma str_mask_le : forall m v, le_map str_eqb (sm_map m) (sm_map (snd (str_mask m v))).
Proof.
  intros m v. unfold str_mask. destruct (lookup str_eqb v (sm_map m)) eqn:H; simpl.
  - apply le_map_refl.
  - intros k w Hk. apply lookup_extend; auto. apply str_eqb_eq.
Qed.
Lemma str_mask_stable : forall m v m', le_map str_eqb (sm_map (snd (str_mask m v))) (sm_map m') ->
  str_mask m' v = (fst (str_mask m v), m').
Proof.
  intros m v m' H. unfold str_mask in H.
  assert (K : lookup str_eqb v (sm_map m') = Some (fst (str_mask m v))).
  { unfold str_mask in *. destruct (lookup str_eqb v (sm_map m)) eqn:Hl; simpl in *.
    - apply H. auto.
    - apply H. apply lookup_cons. apply str_eqb_eq. }
  unfold str_mask at 1. rewrite K. reflexivity.
Qed.
Ltac le_solve := constructor; simpl; try apply le_map_refl; try apply str_mask_le.
Lemma anon_set_hosts_same : forall a, anon_set_hosts (an_hosts a) a = a.
Proof. destruct a; reflexivity. Qed.
Lemma anon_set_ou_same : forall a, anon_set_origin_users (an_origin_users a) a = a.
Proof. destruct a; reflexivity. Qed.
Lemma anon_set_pw_same : forall a, anon_set_ice_passwords (an_ice_passwords a) a = a.
Proof. destruct a; reflexivity. Qed.
Lemma anon_set_us_same : forall a, anon_set_ice_users (an_ice_users a) a = a.
Proof. destruct a; reflexivity. Qed.
Lemma anon_set_cn_same : forall a, anon_set_cnames (an_cnames a) a = a.
Proof. destruct a; reflexivity. Qed.

Lemma good_host : forall h, good (mask_host h).
Proof.
  intros h. split; unfold mask_host.
  - intros a. pose proof (str_mask_le (an_hosts a) h) as H.
    destruct (str_mask (an_hosts a) h). le_solve. auto.
  - intros a b H. pose proof (str_mask_stable (an_hosts a) h (an_hosts b)) as K.
    destruct (str_mask (an_hosts a) h). simpl in *. rewrite K.
    + rewrite anon_set_hosts_same. reflexivity.
    + destruct H. auto.
Qed.
Lemma good_origin_user : forall h, good (mask_origin_user h).
Proof.
  intros h. split; unfold mask_origin_user.
  - intros a. pose proof (str_mask_le (an_origin_users a) h) as H.
    destruct (str_mask (an_origin_users a) h). le_solve. auto.
  - intros a b H. pose proof (str_mask_stable (an_origin_users a) h (an_origin_users b)) as K.
    destruct (str_mask (an_origin_users a) h). simpl in *. rewrite K.
    + rewrite anon_set_ou_same. reflexivity.
    + destruct H. auto.
Qed.
Lemma good_ice_password : forall h, good (mask_ice_password h).
Proof.
  intros h. split; unfold mask_ice_password.
  - intros a. pose proof (str_mask_le (an_ice_passwords a) h) as H.
    destruct (str_mask (an_ice_passwords a) h). le_solve. auto.
  - intros a b H. pose proof (str_mask_stable (an_ice_passwords a) h (an_ice_passwords b)) as K.
    destruct (str_mask (an_ice_passwords a) h). simpl in *. rewrite K.
    + rewrite anon_set_pw_same. reflexivity.
    + destruct H. auto.
Qed.
Lemma good_ice_user : forall h, good (mask_ice_user h).
Proof.
  intros h. split; unfold mask_ice_user.
  - intros a. pose proof (str_mask_le (an_ice_users a) h) as H.
    destruct (str_mask (an_ice_users a) h). le_solve. auto.
  - intros a b H. pose proof (str_mask_stable (an_ice_users a) h (an_ice_users b)) as K.
    destruct (str_mask (an_ice_users a) h). simpl in *. rewrite K.
    + rewrite anon_set_us_same. reflexivity.
    + destruct H. auto.
Qed.
Lemma good_cname : forall h, good (mask_cname h).
Proof.
  intros h. split; unfold mask_cname.
  - intros a. pose proof (str_mask_le (an_cnames a) h) as H.
    destruct (str_mask (an_cnames a) h). le_solve. auto.
  - intros a b H. pose proof (str_mask_stable (an_cnames a) h (an_cnames b)) as K.
    destruct (str_mask (an_cnames a) h). simpl in *. rewrite K.
    + rewrite anon_set_cn_same. reflexivity.
    + destruct H. auto.
Qed.
Lemma good_ip : forall i, good (mask_ip i).
Proof.
  intros i. split; unfold mask_ip.
  - intros a. destruct (lookup ip_eqb i (an_ips a)) eqn:Hl; [apply anon_le_refl|].
    destruct i as [n|n]; le_solve; intros k v Hk;
      apply lookup_extend; auto; apply ip_eqb_eq.
  - intros a b H. destruct (lookup ip_eqb i (an_ips a)) eqn:Hl.
    + simpl in *. destruct H as [H]. rewrite (H _ _ Hl). reflexivity.
    + destruct i as [n|n]; simpl in *; destruct H as [H]; simpl in *.
      * rewrite (H (V4 n) (V4 (wrap_inc two32 (an_v4 a)))); [reflexivity|].
        apply lookup_cons. apply ip_eqb_eq.
      * rewrite (H (V6 n) (V6 (wrap_inc two128 (an_v6 a)))); [reflexivity|].
        apply lookup_cons. apply ip_eqb_eq.
Qed.
Lemma good_port : forall i, good (mask_port i).
Proof.
  intros i. split; unfold mask_port.
  - intros a. destruct (lookup N.eqb i (an_ports a)) eqn:Hl; [apply anon_le_refl|].
    le_solve. intros k v Hk. apply lookup_extend; auto; apply N.eqb_eq.
  - intros a b H. destruct (lookup N.eqb i (an_ports a)) eqn:Hl; simpl in *.
    + destruct H. rewrite (le_ports0 _ _ Hl). reflexivity.
    + destruct H. simpl in *. rewrite (le_ports0 i (wrap_inc two32 (an_port_inc a))); auto.
      apply lookup_cons. apply N.eqb_eq.
Qed.
Lemma good_fp : forall i, good (mask_cert_finger_print i).
Proof.
  intros i. split; unfold mask_cert_finger_print.
  - intros a. destruct (lookup bytes_eqb i (an_fps a)) eqn:Hl; [apply anon_le_refl|].
    le_solve. intros k v Hk. apply lookup_extend; auto; apply str_eqb_eq.
  - intros a b H. destruct (lookup bytes_eqb i (an_fps a)) eqn:Hl; simpl in *.
    + destruct H. rewrite (le_fps0 _ _ Hl). reflexivity.
    + destruct H. simpl in *.
      rewrite (le_fps0 i (to_byte_vec (wrap_inc two64 (an_fp_inc a)))); auto.
      apply lookup_cons. apply str_eqb_eq.
Qed.

Ltac bind1 f g := apply (good_bind _ _ f g); [|intro].
Lemma good_address : forall x, good (mask_address x).
Proof.
  intros [h|i]; unfold mask_address.
  - apply (good_bind _ _ (mask_host h) (fun r a => (Fqdn r, a))); [apply good_host|].
    intros; apply good_ret.
  - apply (good_bind _ _ (mask_ip i) (fun r a => (Ip r, a))); [apply good_ip|].
    intros; apply good_ret.
Qed.
Lemma good_typed : forall x, good (mask_typed_address x).
Proof.
  intros [t h|i]; unfold mask_typed_address.
  - apply (good_bind _ _ (mask_host h) (fun r a => (TFqdn t r, a))); [apply good_host|].
    intros; apply good_ret.
  - apply (good_bind _ _ (mask_ip i) (fun r a => (TIp r, a))); [apply good_ip|].
    intros; apply good_ret.
Qed.
Lemma good_opt : forall A (f : A -> anon -> A * anon) (o : option A), (forall x, good (f x)) ->
  good (fun a => match o with
                 | Some x => let '(r, a) := f x a in (Some r, a)
                 | None => (None, a)
                 end).
Proof.
  intros A f [x|] H; [|apply good_ret].
  apply (good_bind _ _ (f x) (fun r a => (Some r, a))); auto. intros; apply good_ret.
Qed.
Lemma good_candidate : forall c, good (mask_candidate c).
Proof.
  intros c. unfold mask_candidate.
  apply (good_bind _ _ (mask_address (cand_address c)) (fun addr a => _)); [apply good_address|intro].
  apply (good_bind _ _ (mask_port (cand_port c)) (fun addr a => _)); [apply good_port|intro].
  apply (good_bind _ _ _ (fun addr a => _)); [apply good_opt, good_address|intro].
  apply (good_bind _ _ _ (fun addr a => _)); [apply good_opt, good_port|intro].
  apply good_ret.
Qed.
Lemma good_remote : forall c, good (mask_remote_candidate c).
Proof.
  intros c. unfold mask_remote_candidate.
  apply (good_bind _ _ (mask_address (rc_address c)) (fun addr a => _)); [apply good_address|intro].
  apply (good_bind _ _ (mask_port (rc_port c)) (fun addr a => _)); [apply good_port|intro].
  apply good_ret.
Qed.
Lemma good_fingerprint : forall c, good (mask_fingerprint c).
Proof.
  intros c. unfold mask_fingerprint.
  apply (good_bind _ _ (mask_cert_finger_print (fp_bytes c)) (fun addr a => _)); [apply good_fp|intro].
  apply good_ret.
Qed.
Lemma good_ssrc : forall s, good (mask_ssrc s).
Proof.
  intros s. unfold mask_ssrc. destruct (ssrc_attribute s); [|apply good_ret].
  destruct (ssrc_value s); [|apply good_ret].
  destruct (str_eqb (to_lower l) [99; 110; 97; 109; 101]); [|apply good_ret].
  apply (good_bind _ _ (mask_cname l0) (fun addr a => _)); [apply good_cname|intro].
  apply good_ret.
Qed.
Lemma good_attr : forall x, good (mask_attr x).
Proof.
  intros x. destruct x; try apply good_ret; unfold mask_attr.
  - apply (good_bind _ _ (mask_candidate a) (fun addr a => _)); [apply good_candidate|intro].
    apply good_ret.
  - apply (good_bind _ _ (mask_fingerprint a) (fun addr a => _)); [apply good_fingerprint|intro].
    apply good_ret.
  - apply (good_bind _ _ (mask_ice_password a) (fun addr a => _)); [apply good_ice_password|intro].
    apply good_ret.
  - apply (good_bind _ _ (mask_ice_user a) (fun addr a => _)); [apply good_ice_user|intro].
    apply good_ret.
  - apply (good_bind _ _ (mask_remote_candidate a) (fun addr a => _)); [apply good_remote|intro].
    apply good_ret.
  - apply (good_bind _ _ (mask_ssrc a) (fun addr a => _)); [apply good_ssrc|intro].
    apply good_ret.
Qed.
Lemma good_attrs : forall l, good (mask_attrs l).
Proof.
  induction l as [|x l IH]; cbn [mask_attrs]; [apply good_ret|].
  apply (good_bind _ _ (mask_attr x) (fun addr a => _)); [apply good_attr|intro].
  apply (good_bind _ _ (mask_attrs l) (fun addr a => _)); [apply IH|intro].
  apply good_ret.
Qed.
Lemma good_connection : forall c, good (mask_connection c).
Proof.
  intros c. unfold mask_connection.
  apply (good_bind _ _ (mask_typed_address (conn_address c)) (fun addr a => _)); [apply good_typed|intro].
  apply good_ret.
Qed.
Lemma good_origin : forall c, good (mask_origin c).
Proof.
  intros c. unfold mask_origin.
  apply (good_bind _ _ (mask_origin_user (o_username c)) (fun addr a => _)); [apply good_origin_user|intro].
  apply (good_bind _ _ (mask_typed_address (o_unicast_addr c)) (fun addr a => _)); [apply good_typed|intro].
  apply good_ret.
Qed.
Lemma good_media : forall c, good (mask_media c).
Proof.
  intros c. unfold mask_media.
  apply (good_bind _ _ (mask_attrs (m_attribute c)) (fun addr a => _)); [apply good_attrs|intro].
  apply good_ret.
Qed.
Lemma good_session : forall c, good (mask_session c).
Proof.
  intros c. unfold mask_session.
  apply (good_bind _ _ (mask_origin (s_origin c)) (fun addr a => _)); [apply good_origin|intro].
  apply (good_bind _ _ (mask_origin (s_origin c)) (fun addr a => _)); [apply good_origin|intro].
  apply (good_bind _ _ _ (fun addr a => _)); [apply good_opt, good_connection|intro].
  apply (good_bind _ _ (mask_attrs (s_attribute c)) (fun addr a => _)); [apply good_attrs|intro].
  apply good_ret.
Qed.
Lemma good_val : forall v, good (mask_val v).
Proof.
  intros v. destruct v; unfold mask_val;
    refine (good_bind _ _ _ (fun r a => _) _ _); try (intro; apply good_ret).
  - apply good_host.
  - apply good_ip.
  - apply good_address.
  - apply good_typed.
  - apply good_port.
  - apply good_origin_user.
  - apply good_ice_password.
  - apply good_ice_user.
  - apply good_fp.
  - apply good_cname.
  - apply good_candidate.
  - apply good_remote.
  - apply good_fingerprint.
  - apply good_ssrc.
  - apply good_attr.
  - apply good_connection.
  - apply good_origin.
  - apply good_media.
  - apply good_session.
Qed.
Lemma after_le : forall history a, anon_le a (after a history).
Proof.
  unfold after. induction history as [|v h IH]; intros a; simpl; [apply anon_le_refl|].
  eapply anon_le_trans; [apply (proj1 (good_val v) a)|apply IH].
Qed.
Lemma masking_stable : forall a v history,
  fst (mask_val v (after (snd (mask_val v a)) history)) = fst (mask_val v a).
Proof.
  intros a v history. rewrite (proj2 (good_val v) a); [reflexivity|apply after_le].
Qed.

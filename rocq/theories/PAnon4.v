(** * Every sensitive field is replaced by its own mask (C46) *)
From Coq Require Import List NArith ZArith Bool Ascii String Lia.
From Verif Require Import Str Num Net Types Anon StrLemmas SpecAnon PAnon PAnon2.
Import ListNotations.
Open Scope N_scope.
Open Scope list_scope.

Definition masked_in (b : anon) (x y : field) : Prop := fst (mask_field x b) = y.
Definition covers {A} (fx : A -> list field) (f : anon -> A * anon) (fl : list field) : Prop :=
  forall a b, anon_le (snd (f a)) b -> Forall2 (masked_in b) fl (fx (fst (f a))).
Lemma prim : forall f a b, anon_le (snd (mask_field f a)) b -> masked_in b f (fst (mask_field f a)).
Proof.
  intros f a b H. unfold masked_in.
  pose proof (proj2 (good_val (val_of f)) a b) as K. rewrite !mask_field_val in K. simpl in K.
  specialize (K H). apply (f_equal fst) in K. simpl in K. apply val_of_inj. exact K.
Qed.
Lemma cov_host : forall h, covers (fun r => [FHost r]) (mask_host h) [FHost h].
Proof.
  intros h a b H. constructor; auto. pose proof (prim (FHost h) a b) as K. simpl in K.
  destruct (mask_host h a). simpl in *. auto.
Qed.
Lemma cov_ip : forall h, covers (fun r => [FIp r]) (mask_ip h) [FIp h].
Proof.
  intros h a b H. constructor; auto. pose proof (prim (FIp h) a b) as K. simpl in K.
  destruct (mask_ip h a). simpl in *. auto.
Qed.
Lemma cov_port : forall h, covers (fun r => [FPort r]) (mask_port h) [FPort h].
Proof.
  intros h a b H. constructor; auto. pose proof (prim (FPort h) a b) as K. simpl in K.
  destruct (mask_port h a). simpl in *. auto.
Qed.
Lemma cov_ou : forall h, covers (fun r => [FOriginUser r]) (mask_origin_user h) [FOriginUser h].
Proof.
  intros h a b H. constructor; auto. pose proof (prim (FOriginUser h) a b) as K. simpl in K.
  destruct (mask_origin_user h a). simpl in *. auto.
Qed.
Lemma cov_pw : forall h, covers (fun r => [FIcePwd r]) (mask_ice_password h) [FIcePwd h].
Proof.
  intros h a b H. constructor; auto. pose proof (prim (FIcePwd h) a b) as K. simpl in K.
  destruct (mask_ice_password h a). simpl in *. auto.
Qed.
Lemma cov_us : forall h, covers (fun r => [FIceUser r]) (mask_ice_user h) [FIceUser h].
Proof.
  intros h a b H. constructor; auto. pose proof (prim (FIceUser h) a b) as K. simpl in K.
  destruct (mask_ice_user h a). simpl in *. auto.
Qed.
Lemma cov_cn : forall h, covers (fun r => [FCname r]) (mask_cname h) [FCname h].
Proof.
  intros h a b H. constructor; auto. pose proof (prim (FCname h) a b) as K. simpl in K.
  destruct (mask_cname h a). simpl in *. auto.
Qed.
Lemma cov_fp : forall h, covers (fun r => [FFp r]) (mask_cert_finger_print h) [FFp h].
Proof.
  intros h a b H. constructor; auto. pose proof (prim (FFp h) a b) as K. simpl in K.
  destruct (mask_cert_finger_print h a). simpl in *. auto.
Qed.
Lemma cov_address : forall x, covers address_fields (mask_address x) (address_fields x).
Proof.
  intros [h|i] a b H; simpl in *.
  - pose proof (cov_host h a b) as K. destruct (mask_host h a). simpl in *. auto.
  - pose proof (cov_ip i a b) as K. destruct (mask_ip i a). simpl in *. auto.
Qed.
Lemma cov_typed : forall x, covers typed_fields (mask_typed_address x) (typed_fields x).
Proof.
  intros [t h|i] a b H; simpl in *.
  - pose proof (cov_host h a b) as K. destruct (mask_host h a). simpl in *. auto.
  - pose proof (cov_ip i a b) as K. destruct (mask_ip i a). simpl in *. auto.
Qed.
Lemma cov_opt : forall A (fx : A -> list field) (f : A -> anon -> A * anon) o,
  (forall x, covers fx (f x) (fx x)) ->
  covers (option_fields fx) (fun a => match o with
                | Some x => let '(r, a) := f x a in (Some r, a)
                | None => (None, a)
                end) (option_fields fx o).
Proof.
  intros A fx f [x|] H a b L; simpl in *; [|constructor].
  specialize (H x a b). destruct (f x a). simpl in *. auto.
Qed.
Lemma cov_candidate : forall c, covers candidate_fields (mask_candidate c) (candidate_fields c).
Proof.
  intros c a b. unfold mask_candidate, candidate_fields.
  pose proof (cov_address (cand_address c) a b) as K1.
  destruct (mask_address (cand_address c) a) as [r1 a1]; simpl in K1.
  pose proof (cov_port (cand_port c) a1 b) as K2.
  pose proof (proj1 (good_port (cand_port c)) a1) as M2.
  destruct (mask_port (cand_port c) a1) as [r2 a2]; simpl in K2, M2.
  pose proof (cov_opt _ _ _ (raddr c) cov_address a2 b) as K3.
  pose proof (proj1 (good_opt _ _ (raddr c) good_address) a2) as M3. cbv beta in K3, M3.
  destruct (match raddr c with Some x => _ | None => _ end) as [r3 a3]; simpl in K3, M3.
  pose proof (cov_opt _ _ _ (rport c) cov_port a3 b) as K4.
  pose proof (proj1 (good_opt _ _ (rport c) good_port) a3) as M4. cbv beta in K4, M4.
  destruct (match rport c with Some x => _ | None => _ end) as [r4 a4]; simpl in K4, M4.
  simpl. intros L.
  assert (anon_le a3 b) by (eapply anon_le_trans; eauto).
  assert (anon_le a2 b) by (eapply anon_le_trans; eauto).
  assert (anon_le a1 b) by (eapply anon_le_trans; eauto).
  apply Forall2_app; auto. specialize (K2 H0). inversion K2; subst.
  constructor; auto. apply Forall2_app; auto.
Qed.
Lemma cov_remote : forall c, covers (fun c => address_fields (rc_address c) ++ [FPort (rc_port c)])
  (mask_remote_candidate c) (address_fields (rc_address c) ++ [FPort (rc_port c)]).
Proof.
  intros c a b. unfold mask_remote_candidate.
  pose proof (cov_address (rc_address c) a b) as K1.
  destruct (mask_address (rc_address c) a) as [r1 a1]; simpl in K1.
  pose proof (cov_port (rc_port c) a1 b) as K2.
  pose proof (proj1 (good_port (rc_port c)) a1) as M2.
  destruct (mask_port (rc_port c) a1) as [r2 a2]; simpl in K2, M2. simpl.
  intros L. assert (anon_le a1 b) by (eapply anon_le_trans; eauto).
  apply Forall2_app; auto.
Qed.
Lemma cov_ssrc : forall s, covers ssrc_fields (mask_ssrc s) (ssrc_fields s).
Proof.
  intros [i at_ v] a b. unfold mask_ssrc, ssrc_fields; simpl.
  destruct at_ as [at_|]; simpl; [|constructor].
  destruct v as [v|]; simpl; [|constructor].
  change (str_eqb (to_lower at_) [99; 110; 97; 109; 101]) with (is_cname at_).
  destruct (is_cname at_) eqn:E; simpl.
  - pose proof (cov_cn v a b) as K. destruct (mask_cname v a). simpl in *. rewrite E. auto.
  - rewrite E. constructor.
Qed.
Lemma cov_attr : forall x, covers attr_fields (mask_attr x) (attr_fields x).
Proof.
  intros x; destruct x; intros s b; try (intros _; constructor); unfold mask_attr, attr_fields at 1.
  - pose proof (cov_candidate a s b) as K. destruct (mask_candidate a s). simpl in *. auto.
  - unfold mask_fingerprint. pose proof (cov_fp (fp_bytes a) s b) as K.
    destruct (mask_cert_finger_print (fp_bytes a) s). simpl in *. auto.
  - pose proof (cov_pw a s b) as K. destruct (mask_ice_password a s). simpl in *. auto.
  - pose proof (cov_us a s b) as K. destruct (mask_ice_user a s). simpl in *. auto.
  - pose proof (cov_remote a s b) as K. destruct (mask_remote_candidate a s). simpl in *. auto.
  - pose proof (cov_ssrc a s b) as K. destruct (mask_ssrc a s). simpl in *. auto.
Qed.
Lemma cov_attrs : forall l, covers (flat_map attr_fields) (mask_attrs l) (flat_map attr_fields l).
Proof.
  induction l as [|x l IH]; intros a b; cbn [mask_attrs flat_map]; [constructor|].
  pose proof (cov_attr x a b) as K1. destruct (mask_attr x a) as [r1 a1]. simpl in K1.
  pose proof (IH a1 b) as K2. pose proof (proj1 (good_attrs l) a1) as M2.
  destruct (mask_attrs l a1) as [r2 a2]. simpl in *. intros L. apply Forall2_app; auto.
  apply K1. eapply anon_le_trans; eauto.
Qed.
Lemma cov_connection : forall c, covers connection_fields (mask_connection c) (connection_fields c).
Proof.
  intros c a b. unfold mask_connection, connection_fields.
  pose proof (cov_typed (conn_address c) a b) as K. destruct (mask_typed_address (conn_address c) a).
  simpl in *. auto.
Qed.
Lemma cov_origin : forall o, covers origin_fields (mask_origin o) (origin_fields o).
Proof.
  intros c a b. unfold mask_origin, origin_fields.
  pose proof (cov_ou (o_username c) a b) as K1.
  destruct (mask_origin_user (o_username c) a) as [r1 a1]; simpl in K1.
  pose proof (cov_typed (o_unicast_addr c) a1 b) as K2.
  pose proof (proj1 (good_typed (o_unicast_addr c)) a1) as M2.
  destruct (mask_typed_address (o_unicast_addr c) a1) as [r2 a2]; simpl in K2, M2. simpl.
  intros L. assert (L1 : anon_le a1 b) by (eapply anon_le_trans; eauto).
  specialize (K1 L1). inversion K1; subst. constructor; auto.
Qed.
Lemma cov_session : forall s, covers (fun s => fields (VSession s)) (mask_session s) (fields (VSession s)).
Proof.
  intros s a b. unfold mask_session. cbn [fields].
  pose proof (proj2 (good_origin (s_origin s)) a (snd (mask_origin (s_origin s) a)) (anon_le_refl _)) as K.
  pose proof (cov_origin (s_origin s) a b) as K1.
  destruct (mask_origin (s_origin s) a) as [r a1]. simpl in K, K1. rewrite K.
  pose proof (cov_opt _ _ _ (s_connection s) cov_connection a1 b) as K3.
  pose proof (proj1 (good_opt _ _ (s_connection s) good_connection) a1) as M3. cbv beta in K3, M3.
  destruct (match s_connection s with Some x => _ | None => _ end) as [r3 a3]; simpl in K3, M3.
  pose proof (cov_attrs (s_attribute s) a3 b) as K4.
  pose proof (proj1 (good_attrs (s_attribute s)) a3) as M4.
  destruct (mask_attrs (s_attribute s) a3) as [r4 a4]; simpl in K4, M4. cbn [fst snd s_origin s_connection s_attribute].
  intros L.
  assert (anon_le a3 b) by (eapply anon_le_trans; eauto).
  assert (anon_le a1 b) by (eapply anon_le_trans; eauto).
  repeat apply Forall2_app; auto.
Qed.
Lemma cov_media : forall m, covers (fun m => fields (VMedia m)) (mask_media m) (fields (VMedia m)).
Proof.
  intros m a b. unfold mask_media. cbn [fields]. pose proof (cov_attrs (m_attribute m) a b) as K.
  destruct (mask_attrs (m_attribute m) a). simpl in *. auto.
Qed.
Lemma cov_val : forall v, covers fields (mask_val v) (fields v).
Proof.
  intros v.
  assert (W : forall A (C : A -> aval) (f : anon -> A * anon) (x : A),
    covers (fun y => fields (C y)) f (fields (C x)) ->
    covers fields (fun a => let '(r, a) := f a in (C r, a)) (fields (C x))).
  { intros A C f x H a b L. specialize (H a b). destruct (f a). simpl in *. auto. }
  destruct v.
  - apply (W _ VHost). apply cov_host.
  - apply (W _ VIp). apply cov_ip.
  - apply (W _ VAddress). apply cov_address.
  - apply (W _ VTyped). apply cov_typed.
  - apply (W _ VPort). apply cov_port.
  - apply (W _ VOriginUser). apply cov_ou.
  - apply (W _ VIcePwd). apply cov_pw.
  - apply (W _ VIceUser). apply cov_us.
  - apply (W _ VFp). apply cov_fp.
  - apply (W _ VCname). apply cov_cn.
  - apply (W _ VCandidate). apply cov_candidate.
  - apply (W _ VRemote). apply cov_remote.
  - apply (W _ VFingerprint). intros a b. unfold mask_fingerprint.
    pose proof (cov_fp (fp_bytes f) a b) as K. destruct (mask_cert_finger_print (fp_bytes f) a).
    simpl in *. auto.
  - apply (W _ VSsrc). apply cov_ssrc.
  - apply (W _ VAttr). apply cov_attr.
  - apply (W _ VConnection). apply cov_connection.
  - apply (W _ VOrigin). apply cov_origin.
  - apply (W _ VMedia). apply cov_media.
  - apply (W _ VSession). apply cov_session.
Qed.
Lemma masking_complete : forall a v h,
  Forall2 (fun f g => fst (mask_val (val_of f) (after (snd (mask_val v a)) h)) = val_of g)
          (fields v) (fields (fst (mask_val v a))).
Proof.
  intros a v h. pose proof (cov_val v a (after (snd (mask_val v a)) h) (after_le _ _)) as K.
  induction K as [|f g l l' H K IH]; constructor; auto.
  rewrite mask_field_val. simpl. f_equal. exact H.
Qed.

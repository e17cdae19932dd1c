(** * Renaming and redaction (C30, C31) *)
From Coq Require Import List NArith ZArith Bool Ascii String Lia.
From Verif Require Import Str Num Net Types Anon StrLemmas SpecAnon PAnon PAnon2.
Import ListNotations.
Open Scope N_scope.
Open Scope list_scope.

Section Ren.
Variable r : renaming.
Hypothesis OK : renaming_ok r.

Definition ren_keys {K V} (f : K -> K) (m : list (K * V)) : list (K * V) :=
  map (fun e => (f (fst e), snd e)) m.
Definition sm_sim (f : str -> str) (m m' : str_map) : Prop :=
  sm_map m' = ren_keys f (sm_map m) /\ sm_counter m' = sm_counter m /\
  sm_prefix m' = sm_prefix m /\ sm_padding m' = sm_padding m.
Record sim (a b : anon) : Prop := {
  sim_ips : an_ips b = ren_keys (ren_ip r) (an_ips a);
  sim_v4 : an_v4 b = an_v4 a;
  sim_v6 : an_v6 b = an_v6 a;
  sim_hosts : sm_sim (rn_host r) (an_hosts a) (an_hosts b);
  sim_ports : an_ports b = ren_keys (rn_port r) (an_ports a);
  sim_port_inc : an_port_inc b = an_port_inc a;
  sim_ou : sm_sim (rn_origin_user r) (an_origin_users a) (an_origin_users b);
  sim_pw : sm_sim (rn_ice_pwd r) (an_ice_passwords a) (an_ice_passwords b);
  sim_us : sm_sim (rn_ice_user r) (an_ice_users a) (an_ice_users b);
  sim_fps : an_fps b = ren_keys (rn_fp r) (an_fps a);
  sim_fp_inc : an_fp_inc b = an_fp_inc a;
  sim_cn : sm_sim (rn_cname r) (an_cnames a) (an_cnames b)
}.
Lemma sim_new : sim anon_new anon_new.
Proof. constructor; repeat split. Qed.
Lemma lookup_ren : forall K V (eqb : K -> K -> bool) f k (m : list (K * V)),
  (forall x y, eqb x y = true <-> x = y) -> injective f ->
  lookup eqb (f k) (ren_keys f m) = lookup eqb k m.
Proof.
  intros K V eqb f k m He Hf. induction m as [|[k' v] m IH]; simpl; auto.
  rewrite IH. destruct (eqb k k') eqn:E1, (eqb (f k) (f k')) eqn:E2; auto.
  - apply He in E1. subst. assert (eqb (f k') (f k') = true) by (apply He; auto). congruence.
  - apply He in E2. apply Hf in E2. subst. assert (eqb k' k' = true) by (apply He; auto). congruence.
Qed.
Lemma ren_ip_inj : injective (ren_ip r).
Proof.
  intros [x|x] [y|y] H; simpl in H; inversion H; f_equal.
  - eapply ok_ip4; eauto.
  - eapply ok_ip6; eauto.
Qed.

Definition rel {A} (f g : anon -> A * anon) : Prop := forall a b, sim a b ->
  fst (f a) = fst (g b) /\ sim (snd (f a)) (snd (g b)).
Lemma rel_ret : forall A (x : A), rel (fun a => (x, a)) (fun a => (x, a)).
Proof. intros A x a b H. simpl. auto. Qed.
Lemma rel_bind : forall A B (f f' : anon -> A * anon) (g g' : A -> anon -> B * anon),
  rel f f' -> (forall x, rel (g x) (g' x)) ->
  rel (fun a => let '(x, a') := f a in g x a') (fun a => let '(x, a') := f' a in g' x a').
Proof.
  intros A B f f' g g' Hf Hg a b H. destruct (Hf a b H) as [H1 H2].
  destruct (f a) as [x a'], (f' b) as [y b']. simpl in *. subst y. apply Hg. auto.
Qed.
Lemma str_mask_sim : forall f m m' v, injective f -> sm_sim f m m' ->
  fst (str_mask m v) = fst (str_mask m' (f v)) /\ sm_sim f (snd (str_mask m v)) (snd (str_mask m' (f v))).
Proof.
  intros f m m' v Hf [H1 [H2 [H3 H4]]]. unfold str_mask. rewrite H1, lookup_ren; auto; [|apply str_eqb_eq].
  destruct (lookup str_eqb v (sm_map m)); simpl.
  - split; auto. repeat split; auto.
  - rewrite H2, H3, H4. split; auto. repeat split; simpl; auto.
Qed.
Lemma rel_host : forall h, rel (mask_host h) (mask_host (rn_host r h)).
Proof.
  intros h a b S. unfold mask_host.
  destruct (str_mask_sim _ _ _ h (ok_host r OK) (sim_hosts a b S)) as [K1 K2].
  destruct (str_mask (an_hosts a) h), (str_mask (an_hosts b) (rn_host r h)). simpl in *.
  split; auto. destruct S; constructor; simpl; auto.
Qed.
Lemma rel_ou : forall h, rel (mask_origin_user h) (mask_origin_user (rn_origin_user r h)).
Proof.
  intros h a b S. unfold mask_origin_user.
  destruct (str_mask_sim _ _ _ h (ok_origin_user r OK) (sim_ou a b S)) as [K1 K2].
  destruct (str_mask (an_origin_users a) h), (str_mask (an_origin_users b) (rn_origin_user r h)). simpl in *.
  split; auto. destruct S; constructor; simpl; auto.
Qed.
Lemma rel_pw : forall h, rel (mask_ice_password h) (mask_ice_password (rn_ice_pwd r h)).
Proof.
  intros h a b S. unfold mask_ice_password.
  destruct (str_mask_sim _ _ _ h (ok_ice_pwd r OK) (sim_pw a b S)) as [K1 K2].
  destruct (str_mask (an_ice_passwords a) h), (str_mask (an_ice_passwords b) (rn_ice_pwd r h)). simpl in *.
  split; auto. destruct S; constructor; simpl; auto.
Qed.
Lemma rel_us : forall h, rel (mask_ice_user h) (mask_ice_user (rn_ice_user r h)).
Proof.
  intros h a b S. unfold mask_ice_user.
  destruct (str_mask_sim _ _ _ h (ok_ice_user r OK) (sim_us a b S)) as [K1 K2].
  destruct (str_mask (an_ice_users a) h), (str_mask (an_ice_users b) (rn_ice_user r h)). simpl in *.
  split; auto. destruct S; constructor; simpl; auto.
Qed.
Lemma rel_cn : forall h, rel (mask_cname h) (mask_cname (rn_cname r h)).
Proof.
  intros h a b S. unfold mask_cname.
  destruct (str_mask_sim _ _ _ h (ok_cname r OK) (sim_cn a b S)) as [K1 K2].
  destruct (str_mask (an_cnames a) h), (str_mask (an_cnames b) (rn_cname r h)). simpl in *.
  split; auto. destruct S; constructor; simpl; auto.
Qed.
Lemma rel_ip : forall i, rel (mask_ip i) (mask_ip (ren_ip r i)).
Proof.
  intros i a b S. unfold mask_ip. rewrite (sim_ips a b S), lookup_ren;
    [|apply ip_eqb_eq|apply ren_ip_inj].
  destruct (lookup ip_eqb i (an_ips a)); simpl; auto.
  destruct i; simpl; rewrite ?(sim_v4 a b S), ?(sim_v6 a b S); split; auto;
    destruct S; constructor; simpl; auto.
Qed.
Lemma rel_port : forall i, rel (mask_port i) (mask_port (rn_port r i)).
Proof.
  intros i a b S. unfold mask_port. rewrite (sim_ports a b S), lookup_ren;
    [|apply N.eqb_eq|apply (ok_port r OK)].
  destruct (lookup N.eqb i (an_ports a)); simpl; auto.
  rewrite (sim_port_inc a b S). split; auto. destruct S; constructor; simpl; auto.
Qed.
Lemma rel_fp : forall i, rel (mask_cert_finger_print i) (mask_cert_finger_print (rn_fp r i)).
Proof.
  intros i a b S. unfold mask_cert_finger_print. rewrite (sim_fps a b S), lookup_ren;
    [|apply str_eqb_eq|apply (ok_fp r OK)].
  destruct (lookup bytes_eqb i (an_fps a)); simpl; auto.
  rewrite (sim_fp_inc a b S). split; auto. destruct S; constructor; simpl; auto.
Qed.
Lemma rel_address : forall x, rel (mask_address x) (mask_address (ren_address r x)).
Proof.
  intros [h|i]; unfold mask_address, ren_address.
  - refine (rel_bind _ _ _ _ (fun x a => _) (fun x a => _) _ _); [apply rel_host|intro; apply rel_ret].
  - refine (rel_bind _ _ _ _ (fun x a => _) (fun x a => _) _ _); [apply rel_ip|intro; apply rel_ret].
Qed.
Lemma rel_typed : forall x, rel (mask_typed_address x) (mask_typed_address (ren_typed r x)).
Proof.
  intros [t h|i]; unfold mask_typed_address, ren_typed.
  - refine (rel_bind _ _ _ _ (fun x a => _) (fun x a => _) _ _); [apply rel_host|intro; apply rel_ret].
  - refine (rel_bind _ _ _ _ (fun x a => _) (fun x a => _) _ _); [apply rel_ip|intro; apply rel_ret].
Qed.
Ltac rb := refine (rel_bind _ _ _ _ (fun x a => _) (fun x a => _) _ _).
Lemma rel_opt : forall A (f : A -> anon -> A * anon) (ren : A -> A) (o : option A),
  (forall x, rel (f x) (f (ren x))) ->
  rel (fun a => match o with
                | Some x => let '(r, a) := f x a in (Some r, a)
                | None => (None, a)
                end)
      (fun a => match option_map ren o with
                | Some x => let '(r, a) := f x a in (Some r, a)
                | None => (None, a)
                end).
Proof. intros A f ren [x|] H; simpl; [|apply rel_ret]. rb; [apply H|intro; apply rel_ret]. Qed.
Lemma rel_candidate : forall c, rel (mask_candidate c) (mask_candidate (ren_candidate r c)).
Proof.
  intros c. unfold mask_candidate, ren_candidate; simpl.
  rb; [apply rel_address|intro]. rb; [apply rel_port|intro].
  rb; [apply rel_opt, rel_address|intro]. rb; [apply rel_opt, rel_port|intro].
  intros a b H. simpl. auto.
Qed.
Lemma rel_remote : forall c, rel (mask_remote_candidate c) (mask_remote_candidate (ren_remote r c)).
Proof.
  intros c. unfold mask_remote_candidate, ren_remote; simpl.
  rb; [apply rel_address|intro]. rb; [apply rel_port|intro]. apply rel_ret.
Qed.
Lemma rel_ssrc : forall c, rel (mask_ssrc c) (mask_ssrc (ren_ssrc r c)).
Proof.
  intros [i at_ v]. unfold mask_ssrc, ren_ssrc, is_cname; simpl.
  destruct at_ as [at_|]; [|apply rel_ret]. destruct v as [v|].
  - match goal with |- context [if ?b then _ else _] => destruct b end; simpl; [|apply rel_ret].
    rb; [apply rel_cn|intro; apply rel_ret].
  - match goal with |- context [if ?b then _ else _] => destruct b end; simpl; apply rel_ret.
Qed.
Lemma rel_attr : forall x, rel (mask_attr x) (mask_attr (ren_attr r x)).
Proof.
  intros x; destruct x; try apply rel_ret; unfold mask_attr, ren_attr.
  - rb; [apply rel_candidate|intro; apply rel_ret].
  - unfold mask_fingerprint. simpl. rb; [rb; [apply rel_fp|intro; apply rel_ret]|intro; apply rel_ret].
  - rb; [apply rel_pw|intro; apply rel_ret].
  - rb; [apply rel_us|intro; apply rel_ret].
  - rb; [apply rel_remote|intro; apply rel_ret].
  - rb; [apply rel_ssrc|intro; apply rel_ret].
Qed.
Lemma rel_attrs : forall l, rel (mask_attrs l) (mask_attrs (map (ren_attr r) l)).
Proof.
  induction l as [|x l IH]; cbn [mask_attrs map]; [apply rel_ret|].
  rb; [apply rel_attr|intro]. rb; [apply IH|intro]. apply rel_ret.
Qed.
Lemma rel_connection : forall c, rel (mask_connection c) (mask_connection (ren_connection r c)).
Proof. intros c. unfold mask_connection, ren_connection; simpl. rb; [apply rel_typed|intro; apply rel_ret]. Qed.
Lemma rel_origin : forall c, rel (mask_origin c) (mask_origin (ren_origin r c)).
Proof.
  intros c. unfold mask_origin, ren_origin; simpl. rb; [apply rel_ou|intro].
  rb; [apply rel_typed|intro; apply rel_ret].
Qed.
Lemma rel_val : forall v, rel (mask_val v) (mask_val (ren_val r v)).
Proof.
  intros v; destruct v; unfold mask_val, ren_val; rb; try (intro; apply rel_ret).
  - apply rel_host.
  - apply rel_ip.
  - apply rel_address.
  - apply rel_typed.
  - apply rel_port.
  - apply rel_ou.
  - apply rel_pw.
  - apply rel_us.
  - apply rel_fp.
  - apply rel_cn.
  - apply rel_candidate.
  - apply rel_remote.
  - unfold mask_fingerprint. simpl. rb; [apply rel_fp|intro; apply rel_ret].
  - apply rel_ssrc.
  - apply rel_attr.
  - apply rel_connection.
  - apply rel_origin.
  - unfold mask_media. simpl. rb; [apply rel_attrs|intro; apply rel_ret].
  - unfold mask_session. simpl. rb; [apply rel_origin|intro]. rb; [apply rel_origin|intro].
    rb; [apply rel_opt, rel_connection|intro]. rb; [apply rel_attrs|intro; apply rel_ret].
Qed.
Lemma sim_after : forall h a b, sim a b -> sim (after a h) (after b (map (ren_val r) h)).
Proof.
  unfold after. induction h as [|v h IH]; intros a b H; simpl; auto.
  apply IH. apply rel_val. auto.
Qed.
Lemma masking_renamed : forall h v,
  fst (mask_val (ren_val r v) (after anon_new (map (ren_val r) h))) =
  fst (mask_val v (after anon_new h)).
Proof.
  intros h v. symmetry. apply rel_val. apply sim_after, sim_new.
Qed.
End Ren.

(** ** Redaction *)
Definition reach_kind (a : anon) : Prop :=
  forall i j, In (i, j) (an_ips a) -> ren_ip blank i = ren_ip blank j.
Lemma mask_ip_reach : forall i a, reach_kind a ->
  ren_ip blank (fst (mask_ip i a)) = ren_ip blank i /\ reach_kind (snd (mask_ip i a)).
Proof.
  intros i a H. unfold mask_ip.
  destruct (lookup ip_eqb i (an_ips a)) as [x|] eqn:E.
  - apply lookup_In in E; [|apply ip_eqb_eq]. simpl. split; auto. symmetry. auto.
  - destruct i; simpl; split; auto; intros i j [K|K]; auto; inv K; reflexivity.
Qed.
(** [pres red f]: over states whose table keeps families, the result of [f] agrees
    with [x] up to redaction and the state invariant is kept. *)
Definition pres {A} (red : A -> A) (f : anon -> A * anon) (x : A) : Prop :=
  forall a, reach_kind a -> red (fst (f a)) = red x /\ reach_kind (snd (f a)).
Lemma pres_ret : forall A (red : A -> A) x y, red y = red x -> pres red (fun a => (y, a)) x.
Proof. intros A red x y E a H. simpl. auto. Qed.
Lemma pres_bind : forall A B (red : A -> A) (red' : B -> B) (f : anon -> A * anon) (g : A -> anon -> B * anon) x y,
  pres red f x -> (forall x', red x' = red x -> pres red' (g x') y) ->
  pres red' (fun a => let '(x, a') := f a in g x a') y.
Proof.
  intros A B red red' f g x y Hf Hg a H. destruct (Hf a H) as [H1 H2].
  destruct (f a) as [x' a']. simpl in *. apply Hg; auto.
Qed.
Lemma pres_str : forall (f : str -> anon -> str * anon) h,
  (forall a, an_ips (snd (f h a)) = an_ips a) -> pres (fun _ => []) (f h) h.
Proof. intros f h H a K. split; auto. unfold reach_kind. rewrite H. auto. Qed.
Lemma ips_host : forall h a, an_ips (snd (mask_host h a)) = an_ips a.
Proof. intros. unfold mask_host. destruct (str_mask _ _). reflexivity. Qed.
Lemma ips_ou : forall h a, an_ips (snd (mask_origin_user h a)) = an_ips a.
Proof. intros. unfold mask_origin_user. destruct (str_mask _ _). reflexivity. Qed.
Lemma ips_pw : forall h a, an_ips (snd (mask_ice_password h a)) = an_ips a.
Proof. intros. unfold mask_ice_password. destruct (str_mask _ _). reflexivity. Qed.
Lemma ips_us : forall h a, an_ips (snd (mask_ice_user h a)) = an_ips a.
Proof. intros. unfold mask_ice_user. destruct (str_mask _ _). reflexivity. Qed.
Lemma ips_cn : forall h a, an_ips (snd (mask_cname h a)) = an_ips a.
Proof. intros. unfold mask_cname. destruct (str_mask _ _). reflexivity. Qed.
Lemma pres_host : forall h, pres (rn_host blank) (mask_host h) h.
Proof. intros h. apply pres_str. apply ips_host. Qed.
Lemma pres_ou : forall h, pres (rn_origin_user blank) (mask_origin_user h) h.
Proof. intros h. apply pres_str. apply ips_ou. Qed.
Lemma pres_pw : forall h, pres (rn_ice_pwd blank) (mask_ice_password h) h.
Proof. intros h. apply pres_str. apply ips_pw. Qed.
Lemma pres_us : forall h, pres (rn_ice_user blank) (mask_ice_user h) h.
Proof. intros h. apply pres_str. apply ips_us. Qed.
Lemma pres_cn : forall h, pres (rn_cname blank) (mask_cname h) h.
Proof. intros h. apply pres_str. apply ips_cn. Qed.
Lemma pres_ip : forall i, pres (ren_ip blank) (mask_ip i) i.
Proof. intros i a H. apply mask_ip_reach. auto. Qed.
Lemma pres_port : forall p, pres (rn_port blank) (mask_port p) p.
Proof.
  intros p a H. split; auto. unfold mask_port. destruct (lookup N.eqb p (an_ports a)); simpl; auto.
Qed.
Lemma pres_fp : forall p, pres (rn_fp blank) (mask_cert_finger_print p) p.
Proof.
  intros p a H. split; auto. unfold mask_cert_finger_print.
  destruct (lookup bytes_eqb p (an_fps a)); simpl; auto.
Qed.
Ltac pb L := refine (pres_bind _ _ _ _ _ (fun x a => _) _ _ L _); intros ? ?.
Lemma pres_address : forall x, pres (ren_address blank) (mask_address x) x.
Proof.
  intros [h|i]; unfold mask_address.
  - pb (pres_host h). apply pres_ret. reflexivity.
  - pb (pres_ip i). apply pres_ret. simpl. congruence.
Qed.
Lemma pres_typed : forall x, pres (ren_typed blank) (mask_typed_address x) x.
Proof.
  intros [t h|i]; unfold mask_typed_address.
  - pb (pres_host h). apply pres_ret. reflexivity.
  - pb (pres_ip i). apply pres_ret. simpl. congruence.
Qed.
Lemma pres_opt : forall A (red : A -> A) (f : A -> anon -> A * anon) o, (forall x, pres red (f x) x) ->
  pres (option_map red) (fun a => match o with
                | Some x => let '(r, a) := f x a in (Some r, a)
                | None => (None, a)
                end) o.
Proof.
  intros A red f [x|] H; [|apply pres_ret; auto]. pb (H x). apply pres_ret. simpl. congruence.
Qed.
Lemma pres_candidate : forall c, pres (ren_candidate blank) (mask_candidate c) c.
Proof.
  intros c. unfold mask_candidate.
  pb (pres_address (cand_address c)). pb (pres_port (cand_port c)).
  pb (pres_opt _ _ mask_address (raddr c) pres_address).
  pb (pres_opt _ _ mask_port (rport c) pres_port).
  apply pres_ret. destruct c; unfold ren_candidate; simpl in *. congruence.
Qed.
Lemma pres_remote : forall c, pres (ren_remote blank) (mask_remote_candidate c) c.
Proof.
  intros c. unfold mask_remote_candidate.
  pb (pres_address (rc_address c)). pb (pres_port (rc_port c)).
  apply pres_ret. destruct c; unfold ren_remote; simpl in *. congruence.
Qed.
Definition red_fp (f : fingerprint) : fingerprint :=
  {| fp_hash := fp_hash f; fp_bytes := rn_fp blank (fp_bytes f) |}.
Lemma pres_fingerprint : forall c, pres red_fp (mask_fingerprint c) c.
Proof.
  intros c. unfold mask_fingerprint. pb (pres_fp (fp_bytes c)). apply pres_ret. reflexivity.
Qed.
Lemma pres_ssrc : forall c, ssrc_regular c -> pres (ren_ssrc blank) (mask_ssrc c) c.
Proof.
  intros [i at_ v] H. unfold ssrc_regular in H. unfold mask_ssrc; simpl in *.
  destruct at_ as [at_|]; [|apply pres_ret; rewrite H; auto].
  destruct v as [v|]; [|apply pres_ret; auto].
  match goal with |- context [if ?b then _ else _] => destruct b eqn:E end; [|apply pres_ret; auto].
  pb (pres_cn v). apply pres_ret. unfold ren_ssrc, is_cname; simpl. rewrite E. reflexivity.
Qed.
Lemma pres_attr : forall x, attr_regular x -> pres (ren_attr blank) (mask_attr x) x.
Proof.
  intros x; destruct x; intros R; try (apply pres_ret; reflexivity); unfold mask_attr.
  - pb (pres_candidate a). apply pres_ret. simpl. congruence.
  - pb (pres_fingerprint a). apply pres_ret. unfold red_fp in H. simpl in *. congruence.
  - pb (pres_pw a). apply pres_ret. reflexivity.
  - pb (pres_us a). apply pres_ret. reflexivity.
  - pb (pres_remote a). apply pres_ret. simpl. congruence.
  - pb (pres_ssrc a R). apply pres_ret. simpl. congruence.
Qed.
Lemma pres_attrs : forall l, Forall attr_regular l -> pres (map (ren_attr blank)) (mask_attrs l) l.
Proof.
  intros l R. induction R as [|x l Rx R IH]; cbn [mask_attrs]; [apply pres_ret; auto|].
  pb (pres_attr x Rx). pb IH. apply pres_ret. simpl. congruence.
Qed.
Lemma pres_connection : forall c, pres (ren_connection blank) (mask_connection c) c.
Proof.
  intros c. unfold mask_connection. pb (pres_typed (conn_address c)). apply pres_ret.
  destruct c; unfold ren_connection; simpl in *; congruence.
Qed.
Lemma pres_origin : forall c, pres (ren_origin blank) (mask_origin c) c.
Proof.
  intros c. unfold mask_origin. pb (pres_ou (o_username c)). pb (pres_typed (o_unicast_addr c)).
  apply pres_ret. destruct c; unfold ren_origin; simpl in *; congruence.
Qed.
Lemma pres_val : forall v, val_regular v -> pres (ren_val blank) (mask_val v) v.
Proof.
  intros v R; destruct v; unfold mask_val; cbn [val_regular] in R.
  - pb (pres_host h). apply pres_ret. reflexivity.
  - pb (pres_ip i). apply pres_ret. simpl. congruence.
  - pb (pres_address x). apply pres_ret. simpl. congruence.
  - pb (pres_typed x). apply pres_ret. simpl. congruence.
  - pb (pres_port p). apply pres_ret. reflexivity.
  - pb (pres_ou u). apply pres_ret. reflexivity.
  - pb (pres_pw p). apply pres_ret. reflexivity.
  - pb (pres_us u). apply pres_ret. reflexivity.
  - pb (pres_fp b). apply pres_ret. reflexivity.
  - pb (pres_cn c). apply pres_ret. reflexivity.
  - pb (pres_candidate c). apply pres_ret. simpl. congruence.
  - pb (pres_remote c). apply pres_ret. simpl. congruence.
  - pb (pres_fingerprint f). apply pres_ret. unfold red_fp in H. simpl in *. congruence.
  - pb (pres_ssrc s R). apply pres_ret. simpl. congruence.
  - pb (pres_attr x R). apply pres_ret. simpl. congruence.
  - pb (pres_connection c). apply pres_ret. simpl. congruence.
  - pb (pres_origin o). apply pres_ret. simpl. congruence.
  - unfold mask_media. refine (pres_bind _ _ (fun m' =>
      {| m_media := m_media m'; m_connection := m_connection m'; m_bandwidth := m_bandwidth m';
         m_attribute := map (ren_attr blank) (m_attribute m') |}) _ _ (fun x a => _) m _ _ _).
    + pb (pres_attrs _ R). apply pres_ret. simpl. congruence.
    + intros m' Hm. apply pres_ret. cbn [ren_val]. congruence.
  - destruct R as [R1 [R2 R3]]. unfold mask_session.
    assert (P : pres (fun s' => match ren_val blank (VSession s') with VSession x => x | _ => s' end)
                     (mask_session s) s).
    { unfold mask_session. pb (pres_origin (s_origin s)). pb (pres_origin (s_origin s)).
      pb (pres_opt _ _ mask_connection (s_connection s) pres_connection).
      pb (pres_attrs _ R1). apply pres_ret. simpl. congruence. }
    pb P. apply pres_ret. cbn [ren_val] in *. congruence.
Qed.
Lemma reach_field : forall f a, reach_kind a -> reach_kind (snd (mask_field f a)).
Proof.
  intros f a H.
  assert (L : forall A (p : A * anon) (C : A -> field), snd (let '(r, a) := p in (C r, a)) = snd p).
  { intros A [] C. reflexivity. }
  destruct f; cbn [mask_field]; rewrite L.
  - apply pres_host; auto.
  - apply pres_ip; auto.
  - apply pres_port; auto.
  - apply pres_ou; auto.
  - apply pres_pw; auto.
  - apply pres_us; auto.
  - apply pres_fp; auto.
  - apply pres_cn; auto.
Qed.
Lemma reach_run : forall fs a, reach_kind a -> reach_kind (run a fs).
Proof. induction fs as [|f fs IH]; intros a H; simpl; auto. apply IH, reach_field. auto. Qed.
Lemma reach_after : forall h, reach_kind (after anon_new h).
Proof. intros h. rewrite after_run. apply reach_run. intros i j []. Qed.
Lemma masking_keeps : forall h v, val_regular v ->
  ren_val blank (fst (mask_val v (after anon_new h))) = ren_val blank v.
Proof. intros h v R. apply (pres_val v R). apply reach_after. Qed.

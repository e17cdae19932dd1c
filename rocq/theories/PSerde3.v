(** * Lemmas for C57: different values are serialized differently *)
From Coq Require Import List NArith ZArith Bool Ascii String Lia.
From Verif Require Import Str Num Net Types Ext Show Session Tools Serde SpecDoc SpecItems SpecTools SpecSerde StrLemmas NetLemmas PTools PSerde PSerde2.
Import ListNotations.
Open Scope N_scope.
Open Scope list_scope.
Definition inj {A} (f : A -> sv) : Prop := forall a b, f a = f b -> a = b.
Definition inj_on {A} (P : A -> Prop) (f : A -> sv) : Prop := forall a b, P a -> P b -> f a = f b -> a = b.
Lemma option_inj : forall {A} (f : A -> sv), inj f -> inj (sv_option f).
Proof. intros A f H [a|] [b|] Q; try discriminate Q; [|reflexivity]. injection Q as Q. f_equal. apply H, Q. Qed.
Lemma option_inj_on : forall {A} (P : A -> Prop) (f : A -> sv), inj_on P f -> inj_on (fun o => match o with Some x => P x | None => True end) (sv_option f).
Proof. intros A P f H [a|] [b|] Pa Pb Q; try discriminate Q; [|reflexivity]. injection Q as Q. f_equal. apply H; assumption. Qed.
Lemma vec_inj_on : forall {A} (P : A -> Prop) (f : A -> sv), inj_on P f -> inj_on (Forall P) (sv_vec f).
Proof.
  intros A P f H l m Pl Pm Q. injection Q as Q. revert m Pm Q. induction Pl as [|x l Px Pl IH]; intros m Pm Q; destruct Pm as [|y m Py Pm]; try discriminate Q; [reflexivity|].
  cbn [map] in Q. injection Q as Q1 Q2. f_equal; [apply H; assumption | apply IH; assumption].
Qed.
Lemma vec_inj : forall {A} (f : A -> sv), inj f -> inj (sv_vec f).
Proof.
  intros A f H l m Q. injection Q as Q. revert m Q. induction l as [|x l IH]; intros [|y m] Q; try discriminate Q; [reflexivity|].
  cbn [map] in Q. injection Q as Q1 Q2. f_equal; [apply H; assumption | apply IH; assumption].
Qed.
Lemma uint_inj : forall bits, inj (SvUint bits).
Proof. intros bits a b Q. injection Q as ->. reflexivity. Qed.
Lemma str_inj : inj SvStr.
Proof. intros a b Q. injection Q as ->. reflexivity. Qed.
Lemma f32_inj : inj SvF32.
Proof. intros a b Q. injection Q as ->. reflexivity. Qed.
Lemma bool_inj : inj SvBool.
Proof. intros a b Q. injection Q as ->. reflexivity. Qed.
Lemma f64_inj : inj SvF64.
Proof. intros a b Q. injection Q as ->. reflexivity. Qed.
Create HintDb ser.
#[export] Hint Resolve option_inj vec_inj uint_inj str_inj f32_inj bool_inj f64_inj : ser.
(** Equations between parts. *)
Ltac parts1 := repeat match goal with
  | H : sv_option ?f ?x = sv_option ?f ?y |- _ => assert (x = y) by (eapply (@option_inj _ f); [auto 4 with ser | exact H]); clear H
  | H : sv_vec ?f ?x = sv_vec ?f ?y |- _ => assert (x = y) by (eapply (@vec_inj _ f); [auto 4 with ser | exact H]); clear H
  | H : ?f ?x = ?f ?y |- _ => let K := fresh in assert (K : inj f) by auto 4 with ser; apply K in H; clear K
  end.
Definition struct_fields (v : sv) : list (str * sv) := match v with SvStruct _ l | SvStructVariant _ _ _ l => l | _ => [] end.
Definition first_value (l : list (str * sv)) : sv := match l with (_, v) :: _ => v | [] => SvNone end.
Ltac walk Q := lazymatch type of Q with
  | (_, ?x) :: ?l = (_, ?y) :: ?m =>
      let H := fresh in let T := fresh in assert (H : x = y) by exact (f_equal first_value Q);
      assert (T : l = m) by exact (f_equal (@tl _) Q); clear Q; walk T
  | _ => clear Q
  end.
Ltac fields_of f Q := unfold f in Q; apply (f_equal struct_fields) in Q; cbn beta iota delta [struct_fields] in Q; walk Q.
Ltac same := match goal with a : ?A, b : ?A |- ?a = ?b => destruct a, b; cbn in *; congruence end.
Ltac record f := let a := fresh in let b := fresh in let Q := fresh in
  intros a b Q; fields_of f Q; parts1; destruct a, b; cbn in *; subst; reflexivity.
Definition payload (v : sv) : sv := match v with SvNewtypeVariant _ _ _ v => v | _ => SvNone end.
Ltac variants f := let a := fresh in let b := fresh in let Q := fresh in
  intros a b Q; unfold f in Q; destruct a, b; try discriminate Q; try reflexivity; apply (f_equal payload) in Q; cbn beta iota delta [payload] in Q; parts1; congruence.
Lemma transport_inj : inj sv_transport. Proof. variants sv_transport. Qed.
Lemma cand_type_inj : inj sv_cand_type. Proof. variants sv_cand_type. Qed.
Lemma tcp_type_inj : inj sv_tcp_type. Proof. variants sv_tcp_type. Qed.
Lemma direction_inj : inj sv_direction. Proof. variants sv_direction. Qed.
Lemma single_direction_inj : inj sv_single_direction. Proof. variants sv_single_direction. Qed.
Lemma payload_inj : inj sv_payload_type. Proof. variants sv_payload_type. Qed.
Lemma dtls_inj : inj sv_dtls_message. Proof. variants sv_dtls_message. Qed.
Lemma hash_inj : inj sv_hash_type. Proof. variants sv_hash_type. Qed.
Lemma fb_type_inj : inj sv_rtcp_fb_type. Proof. variants sv_rtcp_fb_type. Qed.
Lemma group_semantic_inj : inj sv_group_semantic. Proof. variants sv_group_semantic. Qed.
Lemma ssrc_group_semantic_inj : inj sv_ssrc_group_semantic. Proof. variants sv_ssrc_group_semantic. Qed.
Lemma setup_inj : inj sv_setup. Proof. variants sv_setup. Qed.
Lemma media_value_inj : inj sv_media_value. Proof. variants sv_media_value. Qed.
Lemma protocol_inj : inj sv_protocol_value. Proof. variants sv_protocol_value. Qed.
Lemma pair_inj : inj (fun e : str * str => SvTuple [SvStr (fst e); SvStr (snd e)]).
Proof. intros [a b] [a' b'] Q. cbn in Q. injection Q as -> ->. reflexivity. Qed.
#[export] Hint Resolve transport_inj cand_type_inj tcp_type_inj direction_inj single_direction_inj payload_inj dtls_inj hash_inj fb_type_inj
  group_semantic_inj ssrc_group_semantic_inj setup_inj media_value_inj protocol_inj pair_inj : ser.
Lemma simulcast_id_inj : inj sv_simulcast_id. Proof. record sv_simulcast_id. Qed.
#[export] Hint Resolve simulcast_id_inj : ser.
Lemma simulcast_version_inj : inj sv_simulcast_version.
Proof. intros a b Q. unfold sv_simulcast_version in Q. injection Q as Q. apply (vec_inj sv_simulcast_id); [auto with ser|]. unfold sv_vec. f_equal. exact Q. Qed.
#[export] Hint Resolve simulcast_version_inj : ser.
Lemma simulcast_inj : inj sv_simulcast. Proof. record sv_simulcast. Qed.
Lemma rtcp_fb_inj : inj sv_rtcp_fb. Proof. record sv_rtcp_fb. Qed.
Lemma extmap_inj : inj sv_extmap. Proof. record sv_extmap. Qed.
Lemma rtx_inj : inj sv_rtx. Proof. record sv_rtx. Qed.
#[export] Hint Resolve rtx_inj : ser.
Lemma fmtp_params_inj : inj sv_fmtp_params. Proof. record sv_fmtp_params. Qed.
#[export] Hint Resolve fmtp_params_inj : ser.
Lemma fmtp_inj : inj sv_fmtp. Proof. record sv_fmtp. Qed.
Lemma fingerprint_inj : inj sv_fingerprint. Proof. record sv_fingerprint. Qed.
Lemma xy_inj : inj sv_xy_range.
Proof.
  intros [a b s|l] [a' b' s'|l'] Q; try discriminate Q.
  - injection Q as -> -> Q. f_equal. apply (option_inj (SvUint 32)); [auto with ser | exact Q].
  - apply (f_equal payload) in Q. cbn beta iota delta [payload sv_xy_range] in Q. parts1. congruence.
Qed.
Lemma s_range_inj : inj sv_s_range.
Proof.
  intros [a b|l] [a' b'|l'] Q; try discriminate Q.
  - injection Q as -> ->. reflexivity.
  - apply (f_equal payload) in Q. cbn beta iota delta [payload sv_s_range] in Q. parts1. congruence.
Qed.
Lemma p_range_inj : inj sv_p_range. Proof. record sv_p_range. Qed.
#[export] Hint Resolve xy_inj s_range_inj p_range_inj : ser.
Lemma image_set_inj : inj sv_image_set. Proof. record sv_image_set. Qed.
#[export] Hint Resolve image_set_inj : ser.
Lemma image_set_list_inj : inj sv_image_set_list. Proof. variants sv_image_set_list. Qed.
#[export] Hint Resolve image_set_list_inj : ser.
Lemma image_attr_inj : inj sv_image_attr. Proof. record sv_image_attr. Qed.
Lemma sctpmap_inj : inj sv_sctpmap. Proof. record sv_sctpmap. Qed.
Lemma group_inj : inj sv_group. Proof. record sv_group. Qed.
Lemma msid_inj : inj sv_msid. Proof. record sv_msid. Qed.
Lemma msid_semantic_inj : inj sv_msid_semantic. Proof. record sv_msid_semantic. Qed.
Lemma rid_params_inj : inj sv_rid_params. Proof. record sv_rid_params. Qed.
#[export] Hint Resolve rid_params_inj : ser.
Lemma rid_inj : inj sv_rid. Proof. record sv_rid. Qed.
Lemma rtpmap_inj : inj sv_rtpmap. Proof. record sv_rtpmap. Qed.
Lemma ssrc_inj : inj sv_ssrc. Proof. record sv_ssrc. Qed.
Lemma format_list_inj : inj sv_format_list. Proof. variants sv_format_list. Qed.
#[export] Hint Resolve simulcast_inj rtcp_fb_inj extmap_inj fmtp_inj fingerprint_inj image_attr_inj sctpmap_inj group_inj msid_inj
  msid_semantic_inj rid_inj rtpmap_inj ssrc_inj format_list_inj : ser.
Lemma media_line_inj : inj sv_media_line. Proof. record sv_media_line. Qed.
Lemma timing_inj : inj sv_timing. Proof. record sv_timing. Qed.
Lemma bandwidth_inj : inj sv_bandwidth.
Proof. intros a b Q. destruct a, b; try discriminate Q; injection Q; intros; congruence. Qed.
#[export] Hint Resolve media_line_inj timing_inj bandwidth_inj : ser.

(** ** Addresses *)
Lemma uints_inj : forall bits l m, map (SvUint bits) l = map (SvUint bits) m -> l = m.
Proof. intros bits l m Q. apply (vec_inj (SvUint bits)); [apply uint_inj|]. unfold sv_vec. f_equal. exact Q. Qed.
Lemma digits_step : forall k b n, be_digits (S k) b n = be_digits k b (n / b) ++ [n mod b].
Proof. reflexivity. Qed.
Lemma digits_inj : forall k b n m, b <> 0 -> n < b ^ N.of_nat k -> m < b ^ N.of_nat k -> be_digits k b n = be_digits k b m -> n = m.
Proof.
  induction k as [|k IH]; intros b n m B Hn Hm Q; [cbn in Hn, Hm; lia|]. rewrite !digits_step in Q. apply app_inj_tail in Q. destruct Q as [Q1 Q2].
  rewrite Nat2N.inj_succ, N.pow_succ_r' in Hn, Hm. assert (n / b = m / b).
  { apply (IH b); auto; apply N.div_lt_upper_bound; assumption. }
  rewrite (N.div_mod n b), (N.div_mod m b) by exact B. congruence.
Qed.
Definition octets_of (v : sv) : list sv := match v with SvNewtypeVariant _ _ _ (SvTuple l) => l | _ => [] end.
Lemma ip_inj : forall h, inj_on ip_range (sv_ip h).
Proof.
  intros [|] a b Ha Hb Q.
  - injection Q as Q. apply show_ip_inj; [destruct a; exact Ha | destruct b; exact Hb | exact Q].
  - destruct a as [n|n], b as [m|m].
    + f_equal. apply (digits_inj 4 256); [discriminate| | |]; try (change (256 ^ N.of_nat 4) with 4294967296; cbn [ip_range] in Ha, Hb; unfold u32 in Ha, Hb; lia).
      apply (uints_inj 8). exact (f_equal octets_of Q).
    + exfalso. discriminate Q.
    + exfalso. discriminate Q.
    + f_equal. apply (digits_inj 16 256); [discriminate| | |];
        try (change (256 ^ N.of_nat 16) with 340282366920938463463374607431768211456; cbn [ip_range] in Ha, Hb; unfold u128 in Ha, Hb; lia).
      apply (uints_inj 8). exact (f_equal octets_of Q).
Qed.
Lemma address_inj : forall h, inj_on (fun a => Forall ip_range (address_ips a)) (sv_address h).
Proof.
  intros h [s|a] [t|b] Ha Hb Q; try discriminate Q; apply (f_equal payload) in Q; cbn beta iota delta [payload sv_address] in Q.
  - injection Q as ->. reflexivity.
  - f_equal. apply (ip_inj h); [exact (Forall_inv Ha) | exact (Forall_inv Hb) | exact Q].
Qed.
Lemma addr_type_inj : inj sv_addr_type. Proof. variants sv_addr_type. Qed.
#[export] Hint Resolve addr_type_inj : ser.
Lemma typed_address_inj : forall h, inj_on (fun a => Forall ip_range (typed_ips a)) (sv_typed_address h).
Proof.
  intros h [t s|a] [u v|b] Ha Hb Q; try discriminate Q.
  - fields_of sv_typed_address Q. parts1. congruence.
  - apply (f_equal payload) in Q; cbn beta iota delta [payload sv_typed_address] in Q. f_equal. apply (ip_inj h); [exact (Forall_inv Ha) | exact (Forall_inv Hb) | exact Q].
Qed.
Lemma app_ips : forall (l m : list ip), Forall ip_range (l ++ m) -> Forall ip_range l /\ Forall ip_range m.
Proof. intros l m. apply Forall_app. Qed.
Lemma option_ips : forall {A} (f : A -> list ip) o, Forall ip_range (match o with Some a => f a | None => [] end) ->
  match o with Some a => Forall ip_range (f a) | None => True end.
Proof. intros A f [a|] H; [exact H | exact I]. Qed.
Lemma candidate_inj : forall h, inj_on (fun c => Forall ip_range (attr_ips (ACandidate c))) (sv_candidate h).
Proof.
  intros h a b Ha Hb Q. cbn [attr_ips] in Ha, Hb. apply app_ips in Ha. apply app_ips in Hb. destruct Ha as [A1 A2], Hb as [B1 B2].
  apply option_ips in A2. apply option_ips in B2. fields_of sv_candidate Q.
  repeat match goal with
    | H : sv_address h ?x = sv_address h ?y |- _ => apply (address_inj h _ _ A1 B1) in H
    | H : sv_option (sv_address h) ?x = sv_option (sv_address h) ?y |- _ => apply (option_inj_on _ _ (address_inj h) _ _ A2 B2) in H
    end.
  parts1. destruct a, b; cbn in *; subst; reflexivity.
Qed.
Lemma remote_candidate_inj : forall h, inj_on (fun c => Forall ip_range (attr_ips (ARemoteCandidate c))) (sv_remote_candidate h).
Proof.
  intros h a b A1 B1 Q. cbn [attr_ips] in A1, B1. fields_of sv_remote_candidate Q.
  repeat match goal with H : sv_address h ?x = sv_address h ?y |- _ => apply (address_inj h _ _ A1 B1) in H end.
  parts1. destruct a, b; cbn in *; subst; reflexivity.
Qed.
Lemma rtcp_inj : forall h, inj_on (fun c => Forall ip_range (attr_ips (ARtcp c))) (sv_rtcp h).
Proof.
  intros h a b A1 B1 Q. cbn [attr_ips] in A1, B1. apply option_ips in A1. apply option_ips in B1. fields_of sv_rtcp Q.
  repeat match goal with H : sv_option (sv_typed_address h) ?x = sv_option (sv_typed_address h) ?y |- _ => apply (option_inj_on _ _ (typed_address_inj h) _ _ A1 B1) in H end.
  parts1. destruct a, b; cbn in *; subst; reflexivity.
Qed.
Lemma connection_inj : forall h, inj_on (fun c => Forall ip_range (item_ips (TyConnection c))) (sv_connection h).
Proof.
  intros h a b A1 B1 Q. cbn [item_ips] in A1, B1. fields_of sv_connection Q.
  repeat match goal with H : sv_typed_address h ?x = sv_typed_address h ?y |- _ => apply (typed_address_inj h _ _ A1 B1) in H end.
  parts1. destruct a, b; cbn in *; subst; reflexivity.
Qed.
Lemma origin_inj : forall h, inj_on (fun c => Forall ip_range (item_ips (TyOrigin c))) (sv_origin h).
Proof.
  intros h a b A1 B1 Q. cbn [item_ips] in A1, B1. fields_of sv_origin Q.
  repeat match goal with H : sv_typed_address h ?x = sv_typed_address h ?y |- _ => apply (typed_address_inj h _ _ A1 B1) in H end.
  parts1. destruct a, b; cbn in *; subst; reflexivity.
Qed.
Definition variant_index (v : sv) : nat := match v with SvUnitVariant _ i _ | SvNewtypeVariant _ i _ _ | SvTupleVariant _ i _ _ | SvStructVariant _ i _ _ => i | _ => 0%nat end.
Definition variant_items (v : sv) : list sv := match v with SvTupleVariant _ _ _ l => l | _ => [] end.
Lemma attr_index : forall h a, variant_index (sv_attr h a) = N.to_nat (attr_type_code (attr_type_of a)).
Proof. destruct a; reflexivity. Qed.
Lemma attr_inj : forall h, inj_on (fun a => Forall ip_range (attr_ips a)) (sv_attr h).
Proof.
  intros h a b Ha Hb Q. assert (K : attr_type_code (attr_type_of a) = attr_type_code (attr_type_of b)).
  { apply N2Nat.inj. rewrite <- !(attr_index h), Q. reflexivity. }
  destruct a; destruct b; try discriminate K; clear K; try reflexivity;
    first [ apply (f_equal payload) in Q; cbn beta iota zeta delta [payload sv_attr] in Q; parts1;
            first [ congruence
                  | f_equal; first [ apply (candidate_inj h); assumption | apply (remote_candidate_inj h); assumption | apply (rtcp_inj h); assumption ] ]
          | idtac ].
  - apply (f_equal variant_items) in Q. cbn beta iota zeta delta [variant_items sv_attr] in Q.
    assert (Q1 : sv_ssrc_group_semantic sem = sv_ssrc_group_semantic sem0) by exact (f_equal (fun l => hd SvNone l) Q).
    assert (Q2 : sv_vec sv_ssrc ssrcs = sv_vec sv_ssrc ssrcs0) by exact (f_equal (fun l => hd SvNone (tl l)) Q). parts1. congruence.
Qed.

(** ** Media, sessions and lines *)
Definition ranged (t : sdp_type) : Prop := Forall ip_range (item_ips t).
Lemma ranged_of : forall {A} (c : A -> sdp_type) l, Forall ranged (map c l) -> Forall (fun a => Forall ip_range (item_ips (c a))) l.
Proof. intros A c l H. rewrite Forall_map in H. exact H. Qed.
Lemma ranged_option : forall {A} (c : A -> sdp_type) o, Forall ranged (map c (of_option o)) ->
  match o with Some a => Forall ip_range (item_ips (c a)) | None => True end.
Proof. intros A c [a|] H; [exact (Forall_inv H) | exact I]. Qed.
Lemma media_inj : forall h, inj_on (fun m => Forall ranged (media_items m)) (sv_media h).
Proof.
  intros h a b Ha Hb Q. unfold media_items in Ha, Hb. apply Forall_inv_tail in Ha. apply Forall_inv_tail in Hb.
  rewrite !Forall_app in Ha, Hb. destruct Ha as (A1 & _ & A2), Hb as (B1 & _ & B2).
  apply ranged_option in A1. apply ranged_option in B1. apply (ranged_of TyAttribute) in A2. apply (ranged_of TyAttribute) in B2.
  fields_of sv_media Q.
  repeat match goal with
    | H : sv_option (sv_connection h) ?x = sv_option (sv_connection h) ?y |- _ => apply (option_inj_on _ _ (connection_inj h) _ _ A1 B1) in H
    | H : sv_vec (sv_attr h) ?x = sv_vec (sv_attr h) ?y |- _ => apply (vec_inj_on _ _ (attr_inj h) _ _ A2 B2) in H
    end.
  parts1. destruct a, b; cbn in *; subst; reflexivity.
Qed.
Definition struct_name (v : sv) : str := match v with SvStruct n _ => n | _ => [] end.
Lemma perr_inj : inj sv_perr.
Proof.
  intros a b Q. apply serialized_inj. assert (Q1 := f_equal struct_name Q). assert (Q2 := f_equal struct_fields Q). clear Q.
  unfold sv_perr in Q1, Q2. cbn beta iota delta [struct_name struct_fields] in Q1, Q2.
  assert (F : ser_fields (serialize_perr a) = ser_fields (serialize_perr b)).
  { revert Q2. generalize (ser_fields (serialize_perr a)) (ser_fields (serialize_perr b)). clear. intro l.
    induction l as [|[n v] l IH]; intros [|[m w] k] Q; try discriminate Q; [reflexivity|]. cbn [map fst snd] in Q.
    injection Q as Qn Qv Q. rewrite (IH _ Q), Qn. do 2 f_equal.
    destruct v as [s|x], w as [t|y]; try discriminate Qv; [injection Qv as ->; reflexivity|].
    injection Qv as Qv. apply Nat2N.inj in Qv. subst. reflexivity. }
  assert (L : ser_len (serialize_perr a) = ser_len (serialize_perr b)).
  { rewrite (proj1 (proj2 (serialized_shape a))), (proj1 (proj2 (serialized_shape b))), F. reflexivity. }
  destruct (serialize_perr a), (serialize_perr b). cbn in Q1, F, L. subst. reflexivity.
Qed.
Lemma session_inj : forall h s s', ips_ok s -> ips_ok s' -> sv_session h s = sv_session h s' -> s = s'.
Proof.
  intros h s s' Hs Hs' Q. unfold ips_ok, session_items in Hs, Hs'. fold ranged in Hs, Hs'. change (Forall ranged (session_items s)) in Hs. change (Forall ranged (session_items s')) in Hs'.
    unfold session_items in Hs, Hs'.
    apply Forall_inv_tail in Hs. apply Forall_inv_tail in Hs'.
    assert (A0 := Forall_inv Hs). assert (B0 := Forall_inv Hs'). apply Forall_inv_tail in Hs. apply Forall_inv_tail in Hs'.
    rewrite !Forall_app in Hs, Hs'. destruct Hs as (_ & A1 & _ & A2 & A3), Hs' as (_ & B1 & _ & B2 & B3).
    apply ranged_option in A1. apply ranged_option in B1. apply (ranged_of TyAttribute) in A2. apply (ranged_of TyAttribute) in B2.
    rewrite Forall_flat_map in A3, B3.
    fields_of sv_session Q.
    repeat match goal with
      | H : sv_origin h ?x = sv_origin h ?y |- _ => apply (origin_inj h _ _ A0 B0) in H
      | H : sv_option (sv_connection h) ?x = sv_option (sv_connection h) ?y |- _ => apply (option_inj_on _ _ (connection_inj h) _ _ A1 B1) in H
      | H : sv_vec (sv_attr h) ?x = sv_vec (sv_attr h) ?y |- _ => apply (vec_inj_on _ _ (attr_inj h) _ _ A2 B2) in H
      | H : sv_vec (sv_media h) ?x = sv_vec (sv_media h) ?y |- _ => apply (vec_inj_on _ _ (media_inj h) _ _ A3 B3) in H
      | H : sv_vec sv_perr ?x = sv_vec sv_perr ?y |- _ => apply (vec_inj _ perr_inj) in H
      end.
    parts1. destruct s, s'; cbn in *; subst; reflexivity.
Qed.
Lemma type_inj : forall h, inj_on ranged (sv_type h).
Proof.
  intros h a b Ha Hb Q. unfold ranged in Ha, Hb.
  destruct a, b; try discriminate Q; apply (f_equal payload) in Q; cbn beta iota zeta delta [payload sv_type] in Q; f_equal;
    first [ apply (attr_inj h); assumption | apply (connection_inj h); assumption | apply (origin_inj h); assumption | parts1; assumption ].
Qed.
Lemma line_inj : forall h, inj_on (fun l => ranged (l_type l)) (sv_line h).
Proof.
  intros h a b Ha Hb Q. fields_of sv_line Q.
  repeat match goal with H : sv_type h ?x = sv_type h ?y |- _ => apply (type_inj h _ _ Ha Hb) in H end.
  parts1. destruct a, b; cbn in *; repeat match goal with H : N.of_nat _ = N.of_nat _ |- _ => apply Nat2N.inj in H end; subst; reflexivity.
Qed.

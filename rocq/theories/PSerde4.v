(** * Lemmas for C57: numbers in serialized sessions are in the range of their types *)
From Coq Require Import List NArith ZArith Bool Ascii String Lia.
From Verif Require Import Str Num Net Types Ext Show Session Tools Serde SpecDoc SpecVal SpecItems SpecTools SpecSerde StrLemmas NetLemmas PSerde PSerde2 PSerde3.
Import ListNotations.
Open Scope N_scope.
Open Scope list_scope.
Lemma r_8 : forall n, n <= 255 -> in_range (SvUint 8 n).
Proof. intros n H. constructor. change (2 ^ 8) with 256. lia. Qed.
Lemma r_16 : forall n, n <= 65535 -> in_range (SvUint 16 n).
Proof. intros n H. constructor. change (2 ^ 16) with 65536. lia. Qed.
Lemma r_32 : forall n, n <= 4294967295 -> in_range (SvUint 32 n).
Proof. intros n H. constructor. change (2 ^ 32) with 4294967296. lia. Qed.
Lemma r_64 : forall n, n <= 18446744073709551615 -> in_range (SvUint 64 n).
Proof. intros n H. constructor. change (2 ^ 64) with 18446744073709551616. lia. Qed.
Lemma r_f32 : forall n, n <= 4294967295 -> in_range (SvF32 n).
Proof. intros n H. constructor. change (2 ^ 32) with 4294967296. lia. Qed.
Lemma r_f64 : forall n, n <= 18446744073709551615 -> in_range (SvF64 n).
Proof. intros n H. constructor. change (2 ^ 64) with 18446744073709551616. lia. Qed.
Lemma r_vec : forall {A} (f : A -> sv) (l : list A), Forall (fun x => in_range (f x)) l -> in_range (sv_vec f l).
Proof. intros A f l H. constructor. rewrite Forall_map. exact H. Qed.
Lemma r_all : forall {A} (f : A -> sv) (l : list A), (forall x, in_range (f x)) -> in_range (sv_vec f l).
Proof. intros A f l H. apply r_vec, Forall_forall. intros x _. apply H. Qed.
Lemma r_vec_of : forall {A} (P : A -> Prop) (f : A -> sv) (l : list A), Forall P l -> (forall x, P x -> in_range (f x)) -> in_range (sv_vec f l).
Proof. intros A P f l H K. apply r_vec. eapply Forall_impl; [|exact H]. exact K. Qed.
Lemma r_option : forall {A} (f : A -> sv) (o : option A), match o with Some x => in_range (f x) | None => True end -> in_range (sv_option f o).
Proof. intros A f [x|] H; constructor. exact H. Qed.
Lemma r_at_most : forall max (f : N -> sv) o, at_most max o -> (forall n, n <= max -> in_range (f n)) -> in_range (sv_option f o).
Proof. intros max f [n|] H K; constructor. apply K, H. Qed.
Lemma r_struct : forall name l, Forall (fun f : str * sv => in_range (snd f)) l -> in_range (SvStruct name l).
Proof. intros name l H. constructor. exact H. Qed.
Ltac bounds := unfold u8, u16, u32, u64, u32_max, u8_max, u64_max in *; lia.
(** One constructor at a time. *)
Ltac rng := repeat (cbn beta iota zeta delta [fst snd]; match goal with
  | |- Forall _ (_ :: _) => constructor
  | |- Forall _ [] => constructor
  | |- in_range (SvStruct _ _) => apply r_struct
  | |- in_range (SvUint 8 _) => apply r_8; bounds
  | |- in_range (SvUint 16 _) => apply r_16; bounds
  | |- in_range (SvUint 32 _) => apply r_32; bounds
  | |- in_range (SvUint 64 _) => apply r_64; bounds
  | |- in_range (SvF32 _) => apply r_f32; bounds
  | |- in_range (SvF64 _) => apply r_f64; bounds
  | H : at_most ?m ?o |- in_range (sv_option (SvUint _) ?o) => apply (r_at_most m); [exact H | intros]
  | H : at_most ?m ?o |- in_range (sv_option SvF32 ?o) => apply (r_at_most m); [exact H | intros]
  | |- in_range (sv_option SvStr _) => apply r_option; destruct (_ : option _); constructor
  | |- in_range (sv_vec SvStr _) => apply r_all; constructor
  | |- in_range (SvBool _) => constructor
  | |- in_range (SvStr _) => constructor
  | |- in_range (SvTuple _) => constructor
  | |- in_range (SvUnitVariant _ _ _) => constructor
  | |- in_range (SvNewtypeVariant _ _ _ _) => constructor
  | |- in_range (SvTupleVariant _ _ _ _) => constructor
  | |- in_range (SvStructVariant _ _ _ _) => constructor
  | H : Forall ?P ?l |- in_range (sv_vec _ ?l) => apply (r_vec_of P); [exact H | let x := fresh in let K := fresh in intros x K; cbn beta in K]
  | |- in_range _ => solve [auto with rng]
  end).
Create HintDb rng.
Lemma r_str_option : forall o, in_range (sv_option SvStr o). Proof. intros [x|]; constructor; constructor. Qed.
Lemma r_str_vec : forall l, in_range (sv_vec SvStr l). Proof. intro l. apply r_all. constructor. Qed.
#[export] Hint Resolve r_str_option r_str_vec : rng.
Lemma r_unit_option : forall {A} (f : A -> sv) o, (forall x, in_range (f x)) -> in_range (sv_option f o).
Proof. intros A f [x|] H; constructor. apply H. Qed.
Ltac units f := intros []; unfold f; cbn zeta; rng.
Lemma r_addr_type : forall x, in_range (sv_addr_type x). Proof. units sv_addr_type. Qed.
Lemma r_single_direction : forall x, in_range (sv_single_direction x). Proof. units sv_single_direction. Qed.
Lemma r_transport : forall x, in_range (sv_transport x). Proof. units sv_transport. Qed.
Lemma r_cand_type : forall x, in_range (sv_cand_type x). Proof. units sv_cand_type. Qed.
Lemma r_tcp_type : forall x, in_range (sv_tcp_type x). Proof. units sv_tcp_type. Qed.
Lemma r_dtls : forall x, in_range (sv_dtls_message x). Proof. units sv_dtls_message. Qed.
Lemma r_fb_type : forall x, in_range (sv_rtcp_fb_type x). Proof. units sv_rtcp_fb_type. Qed.
Lemma r_direction : forall x, in_range (sv_direction x). Proof. units sv_direction. Qed.
Lemma r_hash : forall x, in_range (sv_hash_type x). Proof. units sv_hash_type. Qed.
Lemma r_group_semantic : forall x, in_range (sv_group_semantic x). Proof. units sv_group_semantic. Qed.
Lemma r_setup : forall x, in_range (sv_setup x). Proof. units sv_setup. Qed.
Lemma r_ssrc_group_semantic : forall x, in_range (sv_ssrc_group_semantic x). Proof. units sv_ssrc_group_semantic. Qed.
Lemma r_media_value : forall x, in_range (sv_media_value x). Proof. units sv_media_value. Qed.
Lemma r_protocol : forall x, in_range (sv_protocol_value x). Proof. units sv_protocol_value. Qed.
Lemma r_tcp_option : forall o, in_range (sv_option sv_tcp_type o). Proof. intro o. apply r_unit_option, r_tcp_type. Qed.
Lemma r_direction_option : forall o, in_range (sv_option sv_direction o). Proof. intro o. apply r_unit_option, r_direction. Qed.
#[export] Hint Resolve r_addr_type r_single_direction r_transport r_cand_type r_tcp_type r_dtls r_fb_type r_direction r_hash r_group_semantic r_setup
  r_ssrc_group_semantic r_media_value r_protocol r_tcp_option r_direction_option : rng.
Lemma r_simulcast_id : forall x, in_range (sv_simulcast_id x). Proof. intro x. unfold sv_simulcast_id. rng. Qed.
Lemma r_simulcast_version : forall x, in_range (sv_simulcast_version x). Proof. intro x. unfold sv_simulcast_version. rng. apply r_all, r_simulcast_id. Qed.
Lemma r_simulcast : forall x, in_range (sv_simulcast x). Proof. intro x. unfold sv_simulcast. rng; apply r_all, r_simulcast_version. Qed.
Lemma r_group : forall x, in_range (sv_group x). Proof. intro x. unfold sv_group. rng. Qed.
Lemma r_msid : forall x, in_range (sv_msid x). Proof. intro x. unfold sv_msid. rng. Qed.
Lemma r_msid_semantic : forall x, in_range (sv_msid_semantic x). Proof. intro x. unfold sv_msid_semantic. rng. Qed.
#[export] Hint Resolve r_simulcast r_group r_msid r_msid_semantic : rng.
Lemma r_payload : forall x, payload_range x -> in_range (sv_payload_type x).
Proof. intros [n|] H; cbn in *; rng. Qed.
Lemma r_xy : forall x, xy_range_range x -> in_range (sv_xy_range x).
Proof. intros [a b s|l] H; cbn [xy_range_range] in H; unfold sv_xy_range. - destruct H as (A & B & C). rng. - destruct H as (_ & H). rng. Qed.
Lemma r_image_set : forall x, image_set_range x -> in_range (sv_image_set x).
Proof.
  intros x (X & Y & S & P & Q). unfold sv_image_set. rng; try (apply r_xy; assumption).
  - apply r_option. destruct (set_sar x) as [[a b|l]|]; [| |exact I]; unfold sv_s_range.
    + destruct S as (A & B & _). rng.
    + destruct S as (_ & S). rng.
  - apply r_option. destruct (set_par x) as [r|]; [|exact I]. destruct P as (A & B & _). unfold sv_p_range. rng.
Qed.
Lemma r_image_list : forall x, image_list_range x -> in_range (sv_image_set_list x).
Proof. intros [l|] H; cbn [image_list_range] in H; unfold sv_image_set_list; rng. apply r_image_set. assumption. Qed.
Lemma r_pairs : forall l : list (str * str), in_range (sv_vec (fun e => SvTuple [SvStr (fst e); SvStr (snd e)]) l).
Proof. intro l. apply r_all. intro x. rng. Qed.
#[export] Hint Resolve r_payload r_image_list r_pairs : rng.
Section Human.
Context (h : bool).
Lemma r_ip : forall a, in_range (sv_ip h a).
Proof.
  intro a. unfold sv_ip. destruct h; [rng|].
  assert (K : forall k n, Forall in_range (map (SvUint 8) (be_digits k 256 n))).
  { intros k n. rewrite Forall_map. eapply Forall_impl; [|apply (NetLemmas.be_digits_lt k 256 n); discriminate]. intros d D. cbn beta in D. apply r_8. lia. }
  destruct a; constructor; constructor; apply K.
Qed.
Lemma r_address : forall a, in_range (sv_address h a).
Proof. intros [s|a]; unfold sv_address; rng. apply r_ip. Qed.
Lemma r_typed : forall a, in_range (sv_typed_address h a).
Proof. intros [t s|a]; unfold sv_typed_address; rng. apply r_ip. Qed.
Lemma r_address_option : forall o, in_range (sv_option (sv_address h) o).
Proof. intro o. apply r_unit_option, r_address. Qed.
Lemma r_typed_option : forall o, in_range (sv_option (sv_typed_address h) o).
Proof. intro o. apply r_unit_option, r_typed. Qed.
#[local] Hint Resolve r_address r_typed r_address_option r_typed_option : rng.
Lemma r_rtx : forall r, u8 (rtx_apt r) /\ at_most u32_max (rtx_time r) -> in_range (sv_rtx r).
Proof. intros r [A B]. unfold sv_rtx. rng. Qed.
Lemma r_ssrc : forall x, u32 (ssrc_id x) -> in_range (sv_ssrc x).
Proof. intros x H. unfold sv_ssrc. rng. Qed.
Lemma r_attr : forall a, attr_range a -> in_range (sv_attr h a).
Proof.
  intros a H. destruct a; cbn [attr_range] in H; unfold sv_attr; cbn zeta; rng.
  - destruct H as (A & B & C & D & F & G & _ & _). unfold sv_candidate. rng.
  - unfold sv_extmap. rng.
  - destruct H as (A & _). unfold sv_fingerprint. rng.
  - destruct H as (A & H). unfold sv_fmtp. rng. destruct H as (B1 & B2 & B3 & B4 & B5 & B6 & B7 & B8 & B9 & B10 & B11 & B12 & B13 & B14 & B15 & B16 & B17 & B18).
    unfold sv_fmtp_params. rng. apply r_option. destruct (rtx _) as [r|]; [|exact I]. apply r_rtx, B18.
  - destruct H as (A & B & C). unfold sv_image_attr. rng.
  - destruct H as (A & B1 & B2 & B3 & B4 & B5 & B6). unfold sv_rid. rng. unfold sv_rid_params. rng.
  - destruct H as (A & B & _). unfold sv_remote_candidate. rng.
  - destruct H as (A & B & C). unfold sv_rtpmap. rng.
  - destruct H as (A & _). unfold sv_rtcp. rng.
  - unfold sv_rtcp_fb. rng.
  - destruct H as (A & B). unfold sv_sctpmap. rng.
  - apply r_ssrc, H.
  - destruct H as (_ & H). rng. apply r_ssrc. assumption.
Qed.
Lemma r_bandwidth : forall b, item_range (TyBandwidth b) -> in_range (sv_bandwidth b).
Proof. intros b H; destruct b; cbn [item_range] in H; unfold sv_bandwidth; rng. Qed.
Lemma r_connection : forall c, item_range (TyConnection c) -> in_range (sv_connection h c).
Proof. intros c (A & B & C). unfold sv_connection. rng. Qed.
Lemma r_media_line : forall m, item_range (TyMedia m) -> in_range (sv_media_line m).
Proof.
  intros m (A & B & C). unfold sv_media_line. rng. unfold sv_format_list.
  destruct (ml_formats m) as [l|l]; rng. apply r_vec. destruct (ml_media m); try contradiction; destruct C as (_ & C);
    (eapply Forall_impl; [|exact C]; intros n N; cbn beta in *; destruct N as (N & _); apply r_32; lia).
Qed.
Lemma r_origin : forall o, item_range (TyOrigin o) -> in_range (sv_origin h o).
Proof. intros o (A & B & C). unfold sv_origin. rng. Qed.
Lemma r_timing : forall t, item_range (TyTiming t) -> in_range (sv_timing t).
Proof. intros t (A & B). unfold sv_timing. rng. Qed.
Lemma r_type : forall t, item_range t -> in_range (sv_type h t).
Proof.
  intros t H. destruct t; unfold sv_type; cbn zeta; rng.
  - apply r_attr, H. - apply r_bandwidth, H. - apply r_connection, H. - apply r_media_line, H. - apply r_origin, H. - apply r_timing, H.
  - cbn [item_range] in H. subst. apply r_64. discriminate.
Qed.
Lemma all_of : forall {A} (c : A -> sdp_type) (f : A -> sv) l, Forall item_range (map c l) -> (forall x, item_range (c x) -> in_range (f x)) -> in_range (sv_vec f l).
Proof. intros A c f l H K. rewrite Forall_map in H. apply (r_vec_of _ _ _ H K). Qed.
Lemma some_of : forall {A} (c : A -> sdp_type) (f : A -> sv) o, Forall item_range (map c (of_option o)) -> (forall x, item_range (c x) -> in_range (f x)) -> in_range (sv_option f o).
Proof. intros A c f [x|] H K; constructor. apply K. exact (Forall_inv H). Qed.
Lemma r_media : forall m, Forall item_range (media_items m) -> in_range (sv_media h m).
Proof.
  intros m H. unfold media_items in H. assert (A := Forall_inv H). apply Forall_inv_tail in H. rewrite !Forall_app in H. destruct H as (B & C & D).
  unfold sv_media. rng; [apply r_media_line, A | apply (some_of _ _ _ B r_connection) | apply (all_of _ _ _ C r_bandwidth) | apply (all_of _ _ _ D r_attr)].
Qed.
Lemma r_session : forall s, Forall item_range (session_items s) -> in_range (sv_session h (with_warnings s [])).
Proof.
  intros s H. unfold session_items in H. assert (V := Forall_inv H). apply Forall_inv_tail in H. assert (O := Forall_inv H). apply Forall_inv_tail in H.
  rewrite !Forall_app in H. destruct H as (T & C & B & A & M). rewrite Forall_flat_map in M.
  unfold sv_session, with_warnings. cbn [s_version s_origin s_session s_connection s_bandwidth s_timing s_attribute s_media s_warnings]. rng.
  - cbn [item_range] in V. rewrite V. apply r_64. discriminate.
  - apply r_origin, O.
  - apply (some_of _ _ _ C r_connection).
  - apply (all_of _ _ _ B r_bandwidth).
  - apply (some_of _ _ _ T r_timing).
  - apply (all_of _ _ _ A r_attr).
  - rng. apply r_media. assumption.
  - constructor. constructor.
Qed.
End Human.
(** Addresses in the ranges of C17. *)
Lemma range_ips : forall t, item_range t -> Forall ip_range (item_ips t).
Proof.
  assert (KA : forall a, address_range a -> Forall ip_range (address_ips a)) by (intros [s|i] H; cbn in *; auto).
  assert (KT : forall a, typed_range a -> Forall ip_range (typed_ips a)) by (intros [t s|i] H; cbn in *; auto).
  intros t H. destruct t as [a| |c| |o| | |]; cbn [item_ips]; try constructor.
  - destruct a; cbn [attr_ips item_range attr_range] in *; try constructor.
    + destruct H as (_ & _ & _ & _ & _ & _ & A & B). apply Forall_app. split; [apply KA, A|]. destruct (raddr _); [apply KA, B | constructor].
    + destruct H as (_ & _ & A). apply KA, A.
    + destruct H as (_ & A). destruct (rtcp_unicast_addr _); [apply KT, A | constructor].
  - destruct H as (A & _). apply KT, A.
  - destruct H as (_ & _ & A). apply KT, A.
Qed.
Lemma session_ips : forall s, Forall item_range (session_items s) -> ips_ok s.
Proof. intros s H. eapply Forall_impl; [|exact H]. exact range_ips. Qed.

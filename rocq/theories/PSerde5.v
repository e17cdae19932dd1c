(** * Lemmas for C57: floats in serialized sessions *)
From Coq Require Import List NArith ZArith Bool Ascii String Lia.
From Verif Require Import Str Num Net Types Ext Show Session Tools Serde SpecDoc SpecVal SpecItems SpecTools SpecSerde StrLemmas NetLemmas PSerde PSerde2 PSerde3 PSerde4.
Import ListNotations.
Open Scope N_scope.
Open Scope list_scope.
(** Shapes without floats. *)
Fixpoint sc_no_float (s : schema) : bool :=
  match s with
  | ScF32 | ScF64 => false
  | ScBool | ScUint _ | ScStr | ScError => true
  | ScOption s | ScSeq s => sc_no_float s
  | ScTuple l => forallb sc_no_float l
  | ScStruct _ l => forallb (fun f => match f with (_, s) => sc_no_float s end) l
  | ScEnum _ l => forallb (fun f => match f with
      | (_, VUnit) => true | (_, VNew s) => sc_no_float s
      | (_, VTuple l) => forallb sc_no_float l
      | (_, VStruct l) => forallb (fun f => match f with (_, s) => sc_no_float s end) l end) l
  end.
Fixpoint schema_finite (s : schema) (v : sv) (C : conforms s v) {struct C} : sc_no_float s = true -> all_finite v.
Proof.
  assert (L2 : forall ss l, Forall2 conforms ss l -> forallb sc_no_float ss = true -> Forall all_finite l).
  { fix IH 3. intros ss l K H. destruct K as [|s' x ss l P K]; constructor; cbn [forallb] in H; apply andb_true_iff in H;
      [exact (schema_finite _ _ P (proj1 H)) | exact (IH _ _ K (proj2 H))]. }
  assert (F2 : forall (ss : list (string * schema)) (l : list (str * sv)), Forall2 (fun s f => fst f = of_string (fst s) /\ conforms (snd s) (snd f)) ss l ->
    forallb (fun f => match f with (_, s) => sc_no_float s end) ss = true -> Forall (fun f => all_finite (snd f)) l).
  { fix IH 3. intros ss l K H. destruct K as [|[n s'] x ss l P K]; constructor; cbn [forallb] in H; apply andb_true_iff in H;
      [destruct P as [_ P]; exact (schema_finite _ _ P (proj1 H)) | exact (IH _ _ K (proj2 H))]. }
  assert (E : forall (vs : list (string * variant_shape schema)) i v x, nth_error vs i = Some (v, x) -> forall f, forallb f vs = true -> f (v, x) = true).
  { intros vs i w x N f K. rewrite forallb_forall in K. apply K. eapply nth_error_In, N. }
  destruct C; intro K; cbn [sc_no_float] in K; try discriminate K; constructor.
  - exact (schema_finite _ _ C K).
  - clear -H K schema_finite. revert l H. fix IH 2. intros l [|x l' P Q]; constructor; [exact (schema_finite _ _ P K) | exact (IH _ Q)].
  - exact (L2 _ _ H K).
  - exact (F2 _ _ H K).
  - apply (E _ _ _ _ H) in K. cbn beta iota in K. exact (schema_finite _ _ C K).
  - apply (E _ _ _ _ H) in K. cbn beta iota in K. exact (L2 _ _ H0 K).
  - apply (E _ _ _ _ H) in K. cbn beta iota in K. exact (F2 _ _ H0 K).
  - repeat constructor.
  - repeat constructor.
Qed.
Lemma fin_all : forall {A} (P : A -> Prop) (f : A -> sv) l, Forall P l -> (forall x, P x -> all_finite (f x)) -> all_finite (sv_vec f l).
Proof. intros A P f l H K. constructor. rewrite Forall_map. eapply Forall_impl; [|exact H]. exact K. Qed.
Lemma strs_conform : forall l, conforms (ScSeq ScStr) (sv_vec SvStr l).
Proof. intro l. constructor. rewrite Forall_map. apply Forall_forall. constructor. Qed.
Section Human.
Context (h : bool).
Ltac by_shape K := eapply schema_finite; [apply K | try reflexivity; destruct h; reflexivity].
Definition image_ok (t : sdp_type) : Prop := match t with TyAttribute (AImageAttr i) => all_finite (sv_image_attr i) | _ => True end.
Lemma fin_attr : forall a, attr_range a -> image_ok (TyAttribute a) -> all_finite (sv_attr h a).
Proof.
  intros a R I. destruct a; unfold sv_attr; cbn zeta; constructor;
    try solve [constructor
      | by_shape candidate_conforms | by_shape remote_candidate_conforms | by_shape simulcast_conforms | by_shape rtcp_conforms | by_shape rtcp_fb_conforms
      | by_shape extmap_conforms | by_shape fmtp_conforms | by_shape fingerprint_conforms | by_shape sctpmap_conforms | by_shape group_conforms
      | by_shape msid_conforms | by_shape msid_semantic_conforms | by_shape rid_conforms | by_shape rtpmap_conforms | by_shape ssrc_conforms | by_shape strs_conform
      | match goal with |- all_finite (_ ?x) => destruct x; repeat constructor end].
  - constructor. cbn [attr_range] in R. destruct R as (_ & A & B & _). revert A B. unfold f64_is_nan, f64_is_infinite. lia.
  - exact I.
  - constructor; [destruct sem; constructor|]. constructor; [|constructor]. apply (fin_all (fun _ => True)); [apply Forall_forall; auto|]. intros x _. by_shape ssrc_conforms.
Qed.
Lemma fin_session : forall s, Forall item_range (session_items s) -> images_finite s -> all_finite (sv_session h s).
Proof.
  intros s H I. change (Forall image_ok (session_items s)) in I. unfold session_items in H, I.
  apply Forall_inv_tail, Forall_inv_tail in H. apply Forall_inv_tail, Forall_inv_tail in I. rewrite !Forall_app in H, I.
  destruct H as (_ & _ & _ & A & M), I as (_ & _ & _ & A' & M'). rewrite Forall_flat_map in M, M'. rewrite Forall_map in A, A'.
  assert (KA : forall l, Forall (fun a => item_range (TyAttribute a)) l -> Forall (fun a => image_ok (TyAttribute a)) l -> all_finite (sv_vec (sv_attr h) l)).
  { intros l P Q. apply (fin_all _ _ _ (Forall_and P Q)). intros a [X Y]. exact (fin_attr a X Y). }
  assert (KC : forall o, all_finite (sv_option (sv_connection h) o)) by (intros [c|]; constructor; by_shape connection_conforms).
  assert (KB : forall l, all_finite (sv_vec sv_bandwidth l)).
  { intro l. apply (fin_all (fun _ => True)); [apply Forall_forall; auto|]. intros x _. by_shape bandwidth_conforms. }
  unfold sv_session. constructor. repeat (constructor; [cbn [snd]|]); try solve [constructor | apply KC | apply KB].
  - by_shape origin_conforms.
  - destruct (s_session s); repeat constructor.
  - destruct (s_timing s); constructor. by_shape timing_conforms.
  - apply KA; assumption.
  - apply (fin_all _ _ _ (Forall_and M M')). intros m [X Y]. unfold media_items in X, Y. apply Forall_inv_tail in X. apply Forall_inv_tail in Y.
    rewrite !Forall_app in X, Y. destruct X as (_ & _ & X), Y as (_ & _ & Y). rewrite Forall_map in X, Y.
    unfold sv_media. constructor. repeat (constructor; [cbn [snd]|]); try solve [constructor | apply KC | apply KB].
    + by_shape media_line_conforms.
    + apply KA; assumption.
  - apply (fin_all (fun _ => True)); [apply Forall_forall; auto|]. intros x _. by_shape perr_conforms.
Qed.
End Human.

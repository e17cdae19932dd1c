(** * Proofs: the lines of masked documents (C91) *)
From Coq Require Import List Arith NArith ZArith Lia Bool Ascii String.
From Coq Require Import ZifyBool ZifyNat ZifyN.
From Verif Require Import Str Num Net Types Ext Show AttrParse Media Session Anon SpecApi SpecDoc SpecVal SpecItems SpecPrint
  SpecAnon SpecMask SpecShape.
From Verif Require Import StrLemmas NumLemmas PPrint PPrint10 PAnon PAnon2 PAnon3 PAnon4 PMask PRfc26 PRfc27 PMask3 PPrint2.
Import ListNotations.
Open Scope N_scope.
Open Scope list_scope.

Lemma same_refl : forall x, same_kind x x. Proof. left. reflexivity. Qed.
Lemma all_same : forall l, Forall2 same_kind l l.
Proof. induction l; constructor; auto using same_refl. Qed.
Lemma kind_same : forall k x y, In k masked_kinds -> same_kind (k ++ x) (k ++ y).
Proof. intros k x y I. right. exists k, x, y. auto. Qed.

Section WithExt.
Context {E : Ext}.
Definition near (x y : str) : Prop := x = y \/ x <> [] /\ y <> [] /\ same_kind (lit "a=" ++ x) (lit "a=" ++ y).
Lemma near_of : forall t x y, x <> [] -> y <> [] -> In (lit "a=" ++ show_attr_type t ++ [c_colon]) masked_kinds ->
  near (attr_to_string t x) (attr_to_string t y).
Proof.
  intros t x y X Y I. right. unfold attr_to_string. destruct x as [|c x]; [destruct (X eq_refl)|]. destruct y as [|d y]; [destruct (Y eq_refl)|].
  cbn [is_empty]. split; [destruct (show_attr_type t); discriminate|]. split; [destruct (show_attr_type t); discriminate|].
  apply (kind_same _ (c :: x) (d :: y)) in I. rewrite <- !app_assoc in I. exact I.
Qed.
Lemma app_sp : forall (a b : str), a ++ sp ++ b <> [].
Proof. intros [|c a] b K; discriminate K. Qed.
Lemma show_ssrc_some : forall x, show_ssrc x <> [].
Proof. intros x K. unfold show_ssrc in K. apply app_eq_nil in K. destruct K as [K _]. exact (show_N_nonempty _ K). Qed.
Lemma masked_near : forall x h, named x -> near (show_attr x) (show_attr (fst (mask_attr x (after anon_new h)))).
Proof.
  intros x h (Np & Nu). pose proof (masked_codes h (VAttr x)) as C. cbn [mask_val] in C. destruct x; cbn [mask_attr] in *; try (left; reflexivity).
  all: match goal with |- near _ (show_attr (fst (let '(_, _) := ?m in _))) => destruct m as (r & a') eqn:M end; cbn [fst show_attr SpecAnon.fields attr_fields] in *.
  all: apply near_of.
  all: try (unfold show_candidate, show_fingerprint, show_remote_candidate; apply app_sp).
  all: try (vm_compute; tauto).
  all: try apply show_ssrc_some.
  all: try congruence.
  all: inversion C as [|? ? (k & n & K) _]; subst; destruct k; cbn [is_code] in K; try contradiction; destruct K as (ds & -> & _); discriminate.
Qed.
Lemma masked_attrs : forall l h, Forall named l ->
  Forall2 near (map show_attr l) (map show_attr (fst (mask_attrs l (after anon_new h)))).
Proof.
  induction l as [|x l IH]; intros h F; [constructor|]. inversion F as [|? ? N F']; subst. cbn [mask_attrs map].
  pose proof (masked_near x h N) as H. pose proof (after_snoc h (VAttr x)) as A. cbn [mask_val] in A.
  destruct (mask_attr x (after anon_new h)) as (y & a). cbn [fst snd] in *. subst a.
  specialize (IH (h ++ [VAttr x]) F'). destruct (mask_attrs l _) as (ys & a). cbn [fst map] in *. constructor; assumption.
Qed.
Definition full (t : str) : bool := match t with [] => false | _ => true end.
Lemma near_lines : forall l l', Forall2 near l l' ->
  Forall2 same_kind (map (app (lit "a=")) (filter full l)) (map (app (lit "a=")) (filter full l')).
Proof.
  intros l l' F. induction F as [|x y l l' H F IH]; [constructor|]. cbn [filter]. destruct H as [->|(X & Y & K)].
  - destruct (full y); [|exact IH]. constructor; [apply same_refl|exact IH].
  - destruct x; [destruct (X eq_refl)|]. destruct y; [destruct (Y eq_refl)|]. cbn [full map]. constructor; [exact K|exact IH].
Qed.
Lemma masked_attribute_lines : forall l h, Forall named l ->
  Forall2 same_kind (attribute_lines l) (attribute_lines (fst (mask_attrs l (after anon_new h)))).
Proof.
  intros l h F. pose proof (near_lines _ _ (masked_attrs l h F)) as H. unfold attribute_lines. fold full.
  destruct l as [|x l]; [constructor|]. destruct (fst (mask_attrs (x :: l) (after anon_new h))) as [|x' l'] eqn:Q.
  { cbn [mask_attrs] in Q. destruct (mask_attr _ _) as (y & a). destruct (mask_attrs l a) as (ys & a'). discriminate Q. }
  destruct (filter full (map show_attr (x :: l))) as [|z zs]; destruct (filter full (map show_attr (x' :: l'))) as [|z' zs'];
    try (inversion H; fail); [apply all_same|exact H].
Qed.
Lemma masked_media_lines : forall l h, Forall (fun m => Forall named (m_attribute m)) l ->
  Forall2 same_kind (flat_map media_lines l) (flat_map media_lines (mask_medias l (after anon_new h))).
Proof.
  induction l as [|m l IH]; intros h F; [constructor|]. inversion F as [|? ? N F']; subst. cbn [mask_medias].
  pose proof (after_snoc h (VMedia m)) as A. cbn [mask_val] in A. pose proof (masked_attribute_lines _ h N) as H.
  destruct (mask_media m (after anon_new h)) as (m' & a) eqn:M. cbn [snd] in A. subst a. cbn [flat_map]. apply Forall2_app; [|apply IH; exact F'].
  unfold mask_media in M. destruct (mask_attrs (m_attribute m) (after anon_new h)) as (ys & a). cbn [fst] in H. injection M as <- _.
  unfold media_lines. cbn [m_media m_bandwidth m_connection m_attribute]. constructor; [apply same_refl|].
  apply Forall2_app; [apply all_same|]. apply Forall2_app; [apply all_same|exact H].
Qed.
Lemma connection_lines : forall s h, exists h', let '(c, a) := match s_connection s with
    | Some c => let '(r, a) := mask_connection c (after anon_new h) in (Some r, a)
    | None => (None, after anon_new h) end in
  a = after anon_new h' /\
  Forall2 same_kind (map (fun c => printed_line (TyConnection c)) (of_option (s_connection s)))
    (map (fun c => printed_line (TyConnection c)) (of_option c)).
Proof.
  intros s h. destruct (s_connection s) as [c|]; [|exists h; split; [reflexivity|constructor]].
  pose proof (after_snoc h (VConnection c)) as A. cbn [mask_val] in A. destruct (mask_connection c (after anon_new h)) as (c' & a).
  cbn [snd] in A. exists (h ++ [VConnection c]). split; [symmetry; exact A|]. constructor; [|constructor].
  apply (kind_same (lit "c=")). cbn. tauto.
Qed.
Lemma masked_lines : forall s h, all_named s ->
  Forall2 same_kind (session_lines s) (session_lines (mask_document s (after anon_new h))).
Proof.
  intros s h (F & Fm). unfold mask_document, mask_session.
  pose proof (after_snoc h (VOrigin (s_origin s))) as H1. cbn [mask_val] in H1.
  destruct (mask_origin (s_origin s) (after anon_new h)) as (o1 & a1). cbn [snd] in H1. subst a1.
  pose proof (after_snoc (h ++ [VOrigin (s_origin s)]) (VOrigin (s_origin s))) as H2. cbn [mask_val] in H2.
  destruct (mask_origin (s_origin s) (after anon_new (h ++ _))) as (o2 & a2). cbn [snd] in H2. subst a2.
  set (h2 := (h ++ [VOrigin (s_origin s)]) ++ [VOrigin (s_origin s)]).
  destruct (connection_lines s h2) as (h3 & C). destruct (match s_connection s with Some _ => _ | None => _ end) as (c & a).
  destruct C as (-> & C). pose proof (masked_attribute_lines _ h3 F) as G. pose proof (attrs_after (s_attribute s) h3) as H4.
  destruct (mask_attrs (s_attribute s) (after anon_new h3)) as (l & a). cbn [fst snd] in *. subst a.
  unfold session_lines. cbn [s_version s_origin s_session s_timing s_bandwidth s_connection s_attribute s_media].
  constructor; [apply same_refl|]. constructor; [apply (kind_same (lit "o=")); cbn; tauto|]. constructor; [apply same_refl|].
  apply Forall2_app; [apply all_same|]. apply Forall2_app; [apply all_same|]. apply Forall2_app; [exact C|].
  apply Forall2_app; [exact G|]. apply masked_media_lines. exact Fm.
Qed.
Lemma parsed_named (X : ext_ok E) : forall sdp b s, parse_sdp sdp b = Ok s -> all_named s.
Proof.
  intros sdp b s P. apply (parsed_session_wf X) in P. destruct P as ((W & _) & _). rewrite Forall_forall in W.
  assert (N : forall x, In (TyAttribute x) (session_items s) -> named x).
  { intros x I. apply W in I. destruct I as (_ & I). split; intros ->; cbn in I; destruct I as ((c & t & K & _) & _); discriminate K. }
  split.
  - apply Forall_forall. intros x I. apply N. unfold session_items. right. right. rewrite !in_app_iff, !in_map_iff. right. right. right. left. eauto.
  - apply Forall_forall. intros m M. apply Forall_forall. intros x I. apply N. unfold session_items. right. right. rewrite !in_app_iff, !in_map_iff.
    right. right. right. right. apply in_flat_map. exists m. split; [exact M|]. unfold media_items. right. rewrite !in_app_iff, !in_map_iff. eauto.
Qed.

(** ** Masks have no line feeds *)
Definition clean (t : str) : Prop := ~ In 10 t.
Definition field_clean (f : field) : Prop :=
  match f with FHost t | FOriginUser t | FIcePwd t | FIceUser t | FCname t => clean t | _ => True end.
Lemma numbered_clean : forall p n t, ~ In 10 p -> numbered p n t -> clean t.
Proof.
  intros p n t P K I. pose proof (numbered_chars (fun c => c <> 10) p n t) as H. rewrite !Forall_forall in H. apply (fun a b => H a b K 10 I eq_refl).
  - intros c C ->. exact (P C).
  - lia.
Qed.
Lemma masked_clean : forall h v, Forall field_clean (SpecAnon.fields (fst (mask_val v (after anon_new h)))).
Proof.
  intros h v. eapply Forall_impl; [|exact (masked_codes h v)]. intros g (k & n & C).
  destruct k, g; cbn [is_code] in C; try contradiction; cbn [field_clean]; try exact I;
    (eapply numbered_clean; [|exact C]; vm_compute; intuition discriminate).
Qed.
Lemma address_clean : forall x, Forall field_clean (address_fields x) -> Forall clean (address_texts x).
Proof. intros [] F; [|constructor]. inversion F; subst. constructor; [assumption|constructor]. Qed.
Lemma typed_clean : forall x, Forall field_clean (typed_fields x) -> Forall clean (typed_texts x).
Proof. intros [] F; [|constructor]. inversion F; subst. constructor; [assumption|constructor]. Qed.
Lemma attr_clean : forall x h, Forall clean (attr_texts x) -> Forall clean (attr_texts (fst (mask_attr x (after anon_new h)))).
Proof.
  intros x h F. pose proof (masked_clean h (VAttr x)) as C. cbn [mask_val] in C. destruct x; cbn [mask_attr] in *; try exact F.
  - unfold mask_candidate in *. destruct (mask_address _ _) as (ad & a1). destruct (mask_port _ _) as (po & a2).
    destruct (match raddr a with Some _ => _ | None => _ end) as (ra & a3). destruct (match rport a with Some _ => _ | None => _ end) as (rp & a4).
    cbn [fst SpecAnon.fields attr_fields attr_texts foundation cand_address raddr ufrag unknown_extensions] in *. unfold candidate_fields in C. cbn [cand_address raddr] in C.
    inversion F as [|? ? F1 F2]; subst. rewrite !Forall_app in *. destruct C as (C1 & _ & C2 & _). destruct F2 as (_ & _ & F3 & F4).
    constructor; [exact F1|]. rewrite !Forall_app. split; [exact (address_clean _ C1)|]. split; [|split; assumption].
    destruct ra as [y|]; [|constructor]. apply Forall_app. split; [exact (address_clean _ C2)|constructor].
  - destruct (mask_fingerprint _ _) as (y & a'). constructor.
  - destruct (mask_ice_password _ _) as (y & a'). cbn in *. inversion C; subst. constructor; [assumption|constructor].
  - destruct (mask_ice_user _ _) as (y & a'). cbn in *. inversion C; subst. constructor; [assumption|constructor].
  - unfold mask_remote_candidate in *. destruct (mask_address _ _) as (ad & a1). destruct (mask_port _ _) as (po & a2).
    cbn [fst SpecAnon.fields attr_fields attr_texts rc_address] in *. apply Forall_app in C. exact (address_clean _ (proj1 C)).
  - unfold mask_ssrc in *. destruct (ssrc_attribute a) as [at_|] eqn:A; [|constructor]. destruct (ssrc_value a) as [v|] eqn:V; [|exact F].
    destruct (str_eqb _ _) eqn:Q; [|exact F]. destruct (mask_cname v _) as (r & a'). cbn [fst SpecAnon.fields attr_fields attr_texts] in *.
    unfold ssrc_fields, ssrc_texts in *. cbn [ssrc_attribute ssrc_value of_option app] in *. rewrite A in F. cbn [of_option app] in F.
    unfold is_cname in C. rewrite Q in C. inversion C; subst. inversion F; subst. constructor; [assumption|]. constructor; [assumption|constructor].
Qed.
Lemma attrs_clean : forall l h, Forall (fun x => Forall clean (attr_texts x)) l ->
  Forall (fun x => Forall clean (attr_texts x)) (fst (mask_attrs l (after anon_new h))).
Proof.
  induction l as [|x l IH]; intros h F; [constructor|]. inversion F as [|? ? N F']; subst. cbn [mask_attrs].
  pose proof (attr_clean x h N) as H. pose proof (after_snoc h (VAttr x)) as A. cbn [mask_val] in A.
  destruct (mask_attr x (after anon_new h)) as (y & a). cbn [fst snd] in *. subst a.
  specialize (IH (h ++ [VAttr x]) F'). destruct (mask_attrs l _) as (ys & a). cbn [fst] in *. constructor; assumption.
Qed.
Definition nlf (ty : sdp_type) : Prop := Forall clean (item_texts ty).
Lemma nlf_attrs : forall l, Forall nlf (map TyAttribute l) <-> Forall (fun x => Forall clean (attr_texts x)) l.
Proof. intros l. rewrite Forall_map. reflexivity. Qed.
Lemma medias_clean : forall l h, Forall nlf (flat_map media_items l) -> Forall nlf (flat_map media_items (mask_medias l (after anon_new h))).
Proof.
  induction l as [|m l IH]; intros h F; [constructor|]. cbn [flat_map] in F. apply Forall_app in F. destruct F as (N & F'). cbn [mask_medias].
  pose proof (after_snoc h (VMedia m)) as A. cbn [mask_val] in A.
  destruct (mask_media m (after anon_new h)) as (m' & a) eqn:M. cbn [snd] in A. subst a. cbn [flat_map]. apply Forall_app. split; [|apply IH; exact F'].
  unfold media_items in N. inversion N as [|? ? N1 N2]; subst. rewrite !Forall_app in N2. destruct N2 as (N2 & N3 & N4).
  apply nlf_attrs in N4. apply (attrs_clean _ h) in N4. unfold mask_media in M. destruct (mask_attrs (m_attribute m) (after anon_new h)) as (ys & a).
  cbn [fst] in N4. injection M as <- _. unfold media_items. cbn [m_media m_bandwidth m_connection m_attribute]. constructor; [exact N1|].
  rewrite !Forall_app. split; [exact N2|]. split; [exact N3|]. apply nlf_attrs. exact N4.
Qed.
Lemma document_clean : forall s h, session_clean s -> session_clean (mask_document s (after anon_new h)).
Proof.
  intros s h (F & Nm). unfold mask_document, mask_session.
  pose proof (after_snoc h (VOrigin (s_origin s))) as H1. cbn [mask_val] in H1.
  destruct (mask_origin (s_origin s) (after anon_new h)) as (o1 & a1). cbn [snd] in H1. subst a1.
  pose proof (after_snoc (h ++ [VOrigin (s_origin s)]) (VOrigin (s_origin s))) as H2. cbn [mask_val] in H2.
  pose proof (masked_clean (h ++ [VOrigin (s_origin s)]) (VOrigin (s_origin s))) as O. cbn [mask_val] in O.
  destruct (mask_origin (s_origin s) (after anon_new (h ++ _))) as (o2 & a2). cbn [fst snd SpecAnon.fields] in *. subst a2.
  set (h2 := (h ++ [VOrigin (s_origin s)]) ++ [VOrigin (s_origin s)]).
  assert (CO : exists h3 c', (match s_connection s with
      | Some c => let '(r, a) := mask_connection c (after anon_new h2) in (Some r, a)
      | None => (None, after anon_new h2) end) = (c', after anon_new h3) /\ Forall nlf (map TyConnection (of_option c'))).
  { destruct (s_connection s) as [c|]; [|exists h2, None; split; [reflexivity|constructor]].
    pose proof (after_snoc h2 (VConnection c)) as H3. pose proof (masked_clean h2 (VConnection c)) as C. cbn [mask_val] in *.
    destruct (mask_connection c (after anon_new h2)) as (c' & a3). cbn [fst snd SpecAnon.fields] in *. subst a3.
    exists (h2 ++ [VConnection c]), (Some c'). split; [reflexivity|]. constructor; [|constructor]. exact (typed_clean _ C). }
  destruct CO as (h3 & c & -> & C). unfold session_items in F. inversion F as [|? ? Fv F1]; subst. inversion F1 as [|? ? Fo F2]; subst. rewrite !Forall_app in F2.
  destruct F2 as (Ft & _ & Fb & Fa & Fm). apply nlf_attrs in Fa. apply (attrs_clean _ h3) in Fa. pose proof (attrs_after (s_attribute s) h3) as H4.
  destruct (mask_attrs (s_attribute s) (after anon_new h3)) as (l & a). cbn [fst snd] in *. subst a.
  split; [|exact Nm]. unfold session_items. cbn [s_version s_origin s_session s_timing s_bandwidth s_connection s_attribute s_media].
  constructor; [exact Fv|]. constructor.
  { unfold origin_fields in O. inversion O as [|? ? O1 O2]; subst. constructor; [exact O1|exact (typed_clean _ O2)]. }
  rewrite !Forall_app. split; [exact Ft|]. split; [exact C|]. split; [exact Fb|]. split; [apply nlf_attrs; exact Fa|]. apply medias_clean. exact Fm.
Qed.
Lemma parsed_shape (X : ext_ok E) : forall sdp b s h, parse_sdp sdp b = Ok s ->
  Forall2 same_kind (lines (show_session s)) (lines (show_session (mask_document s (after anon_new h)))).
Proof.
  intros sdp b s h P. pose proof (parsed_clean X _ _ _ P) as C. pose proof (document_clean s h C) as C'.
  rewrite (proj1 (proj2 (session_lines_ok X s C))), (proj1 (proj2 (session_lines_ok X _ C'))).
  apply masked_lines. exact (parsed_named X _ _ _ P).
Qed.
End WithExt.

(** * Masked documents and the rules of the RFCs (C83) *)
From Coq Require Import List Arith NArith ZArith Lia Bool Ascii String.
From Coq Require Import ZifyBool ZifyNat ZifyN.
From Verif Require Import Str Num Net Types Ext Show Address AttrParse Media Session Anon SpecApi SpecDoc SpecVal SpecItems
  SpecPrint SpecIp SpecGrammar SpecAnon SpecMask.
From Verif Require Import StrLemmas NumLemmas NetLemmas PVal PVal2 PVal6 PVal8 PVal9 PVal10 PVal11 PPrint PPrint2 PPrint3 PPrint4
  PPrint9 PPrint10 PPrint11 PIp PIp2 PDoc3 PExt0 PSettle PAnon PAnon2 PAnon3 PAnon4 PMask.
From Verif Require Import SpecRfc PRfc PRfc9 PRfc17 PRfc20 PRfc22 PRfc23 PRfc24 PRfc25 PRfc26.
Import ListNotations.
Open Scope N_scope.
Open Scope list_scope.

(** ** Which anonymizers the parts are masked with *)
Lemma attrs_after : forall l h, snd (mask_attrs l (after anon_new h)) = after anon_new (h ++ map VAttr l).
Proof.
  induction l as [|x l IH]; intro h; cbn [mask_attrs map]; [rewrite app_nil_r; reflexivity|].
  pose proof (after_snoc h (VAttr x)) as A. cbn [mask_val] in A. destruct (mask_attr x (after anon_new h)) as (y & a). cbn [snd] in A. subst a.
  specialize (IH (h ++ [VAttr x])). destruct (mask_attrs l (after anon_new (h ++ [VAttr x]))) as (ys & a). cbn [snd] in *.
  rewrite IH, <- app_assoc. reflexivity.
Qed.
Lemma attrs_masked : forall l h x', In x' (fst (mask_attrs l (after anon_new h))) -> exists h' x, In x l /\
  x' = fst (mask_attr x (after anon_new h')) /\
  incl (flat_map SpecAnon.fields (h' ++ [VAttr x])) (flat_map SpecAnon.fields h ++ flat_map attr_fields l).
Proof.
  induction l as [|x l IH]; intros h x' M; cbn [mask_attrs] in M; [destruct M|].
  pose proof (after_snoc h (VAttr x)) as A. cbn [mask_val] in A. destruct (mask_attr x (after anon_new h)) as (y & a) eqn:Q. cbn [snd] in A. subst a.
  specialize (IH (h ++ [VAttr x])). destruct (mask_attrs l (after anon_new (h ++ [VAttr x]))) as (ys & a). cbn [fst] in *.
  destruct M as [<-|M].
  - exists h, x. split; [left; reflexivity|]. split; [rewrite Q; reflexivity|]. rewrite flat_map_app. cbn [flat_map SpecAnon.fields].
    rewrite app_nil_r. apply incl_app; [apply incl_appl, incl_refl|apply incl_appr, incl_appl, incl_refl].
  - destruct (IH x' M) as (h' & z & Z & Q' & I). exists h', z. split; [right; exact Z|]. split; [exact Q'|].
    rewrite (flat_map_app _ h [VAttr x]) in I. cbn [flat_map SpecAnon.fields] in I |- *. rewrite app_nil_r, <- app_assoc in I. exact I.
Qed.
Lemma medias_masked : forall l h m', In m' (mask_medias l (after anon_new h)) -> exists h' m, In m l /\
  m' = fst (mask_media m (after anon_new h')) /\
  incl (flat_map SpecAnon.fields (h' ++ [VMedia m])) (flat_map SpecAnon.fields h ++ flat_map (fun m => SpecAnon.fields (VMedia m)) l).
Proof.
  induction l as [|x l IH]; intros h x' M; cbn [mask_medias] in M; [destruct M|].
  pose proof (after_snoc h (VMedia x)) as A. cbn [mask_val] in A. destruct (mask_media x (after anon_new h)) as (y & a) eqn:Q. cbn [snd] in A. subst a.
  specialize (IH (h ++ [VMedia x])). destruct M as [<-|M].
  - exists h, x. split; [left; reflexivity|]. split; [rewrite Q; reflexivity|]. rewrite flat_map_app. cbn [flat_map].
    rewrite app_nil_r. apply incl_app; [apply incl_appl, incl_refl|apply incl_appr, incl_appl, incl_refl].
  - destruct (IH x' M) as (h' & z & Z & Q' & I). exists h', z. split; [right; exact Z|]. split; [exact Q'|].
    rewrite (flat_map_app _ h [VMedia x]) in I. cbn [flat_map] in I |- *. rewrite app_nil_r, <- app_assoc in I. exact I.
Qed.

Section WithExt.
Context {E : Ext}.
Hypothesis OK : ext_ok E.
Hypothesis D : masked_names_are_domains.
(** A line of one of the rules, what is left of an fmtp or ssrc line, or a mask
    that follows no rule. *)
Definition line_masked (l : str) : Prop :=
  line_again l \/ exists v, l = lit "a=ice-ufrag:ice-user-" ++ v \/ l = lit "a=ice-pwd:ice-password-" ++ v \/ l = lit "a=fingerprint:" ++ v.
Lemma attr_masked_line : forall h x t n l, (exists kinds, of_kind kinds t) -> parse_sdp_line t n = Ok l -> l_type l = TyAttribute x ->
  ports_fit (flat_map SpecAnon.fields (h ++ [VAttr x])) ->
  line_masked (printed_line (TyAttribute (fst (mask_attr x (after anon_new h))))).
Proof.
  intros h x t n l (kinds & k & r & KI & M & G) P T PF.
  assert (LA : line_again (printed_line (TyAttribute x))).
  { rewrite <- T. apply (line_printed OK t n l); [|exact P]. exists kinds, k, r. auto. }
  destruct (String.eqb_spec k "fmtp") as [->|N1]; [|destruct (String.eqb_spec k "ssrc") as [->|N2]].
  - rewrite (rule_of _ _ M) in G by (left; reflexivity). cbn [String.eqb Ascii.eqb Bool.eqb] in G.
    destruct (fmtp_again t n G) as (f & Q & K). rewrite Q in P. injection P as <-. cbn [l_type] in T. injection T as <-. left. exact LA.
  - rewrite (rule_of _ _ M) in G by (right; left; reflexivity). cbn [String.eqb Ascii.eqb Bool.eqb] in G.
    destruct (ssrc_parts t n G) as (s & Q & (a0 & A0 & _) & K). pose proof P as P0. rewrite Q in P. injection P as <-. cbn [l_type] in T. injection T as <-. left.
    assert (C : (ssrc_value s <> Some [] \/ (exists a, ssrc_attribute s = Some a /\ is_cname a = true)) \/ fst (mask_attr (ASsrc s) (after anon_new h)) = ASsrc s).
    { destruct (ssrc_value s) as [[|c v]|] eqn:SV; [|left; left; discriminate|left; left; discriminate].
      destruct (ssrc_attribute s) as [a|] eqn:SA.
      - destruct (is_cname a) eqn:C; [left; right; eauto|]. right. cbn [mask_attr]. unfold mask_ssrc. rewrite SA, SV. unfold is_cname in C. rewrite C. reflexivity.
      - discriminate A0. }
    destruct C as [C| ->]; [|exact LA].
    left. apply (of_rule "ssrc" _ _ (value_in "ssrc" rfc_ssrc ltac:(unfold rfc_values; cbn [In]; tauto))).
    exact (masked_ssrc_follows OK h t n s _ G P0 eq_refl C).
  - destruct (lines_retaken OK k r t N1 N2 M G n) as (ty & Q & I & _).
    assert (K : sdp_name x = k) by (rewrite Q in P; injection P as <-; cbn [l_type] in T; subst ty; exact I). clear Q I ty.
    assert (C : (exists f, x = AFingerprint f) \/ (exists u, x = AIcePwd u) \/ (exists u, x = AIceUfrag u) \/
      (k <> "ice-ufrag"%string /\ k <> "ice-pwd"%string /\ k <> "fingerprint"%string)).
    { subst k. destruct x; try (do 3 right; repeat split; discriminate); [left|right; left|right; right; left]; eauto. }
    pose proof (masked_codes h (VAttr x)) as MC.
    destruct C as [[f ->]|[[u ->]|[[u ->]|(N3 & N4 & N5)]]].
    + right. cbn [mask_attr]. unfold mask_fingerprint. destruct (mask_cert_finger_print (fp_bytes f) (after anon_new h)) as (b & a'). cbn [fst].
      eexists. right. right. unfold printed_line. cbn [line_letter item_text show_attr]. rewrite shown; [reflexivity|].
      unfold show_fingerprint. cbn [fp_hash]. destruct (fp_hash f); discriminate.
    + right. cbn [mask_val mask_attr] in *. destruct (mask_ice_password u (after anon_new h)) as (u' & a'). cbn [fst SpecAnon.fields attr_fields] in *.
      inversion MC as [|? ? (j & m & C) _]; subst. destruct j; cbn [is_code] in C; try contradiction. destruct C as (ds & -> & _).
      exists ds. right. left. reflexivity.
    + right. cbn [mask_val mask_attr] in *. destruct (mask_ice_user u (after anon_new h)) as (u' & a'). cbn [fst SpecAnon.fields attr_fields] in *.
      inversion MC as [|? ? (j & m & C) _]; subst. destruct j; cbn [is_code] in C; try contradiction. destruct C as (ds & -> & _).
      exists ds. left. reflexivity.
    + left. left. apply (of_rule k r _ M).
      refine (masked_line_follows OK D h k r t n (VAttr x) l _ N1 N2 N3 N4 N5 M G P _ _ PF).
      * cbn [line_value]. rewrite T. reflexivity.
      * cbn [mask_val]. destruct (mask_attr x (after anon_new h)). reflexivity.
Qed.
Lemma other_masked_line : forall h v ty ty' t n l, (exists kinds, of_kind kinds t) -> parse_sdp_line t n = Ok l -> l_type l = ty ->
  (forall x, v <> VAttr x) -> line_value v = Some ty -> line_value (fst (mask_val v (after anon_new h))) = Some ty' ->
  ports_fit (flat_map SpecAnon.fields (h ++ [v])) -> line_masked (printed_line ty').
Proof.
  intros h v ty ty' t n l (kinds & k & r & KI & M & G) P T NA V V' PF.
  assert (K : k = "c"%string \/ k = "o"%string).
  { destruct (String.eqb_spec k "fmtp") as [->|N1]; [|destruct (String.eqb_spec k "ssrc") as [->|N2]].
    - exfalso. rewrite (rule_of _ _ M) in G by (left; reflexivity). cbn [String.eqb Ascii.eqb Bool.eqb] in G.
      destruct (fmtp_again t n G) as (f & Q & _). rewrite Q in P. injection P as <-. cbn [l_type] in T. subst ty.
      destruct v; try discriminate V. injection V as ->. eapply NA. reflexivity.
    - exfalso. rewrite (rule_of _ _ M) in G by (right; left; reflexivity). cbn [String.eqb Ascii.eqb Bool.eqb] in G.
      destruct (ssrc_again t n G) as (f & Q & _). rewrite Q in P. injection P as <-. cbn [l_type] in T. subst ty.
      destruct v; try discriminate V. injection V as ->. eapply NA. reflexivity.
    - destruct (lines_retaken OK k r t N1 N2 M G n) as (y & Q & I & _). rewrite Q in P. injection P as <-. cbn [l_type] in T. subst y.
      destruct v; try discriminate V; injection V as <-; cbn [item_name] in I; [exfalso; eapply NA; reflexivity|left|right]; congruence. }
  left. left. apply (of_rule k r _ M). subst ty.
  refine (masked_line_follows OK D h k r t n v l ty' _ _ _ _ _ M G P V V' PF); destruct K as [->| ->]; discriminate.
Qed.
Lemma masked_documents : forall sdp strict s h,
  Forall (fun t => SpecDoc.blank t \/ exists kinds, of_kind kinds t) (lines sdp) -> parse_sdp sdp strict = Ok s ->
  ports_fit (flat_map SpecAnon.fields h ++ document_fields s) ->
  Forall line_masked (session_lines (mask_document s (after anon_new h))).
Proof.
  intros sdp strict s h F P PF. pose proof (documents_again OK sdp strict s F P) as A.
  destruct (session_lines_ok OK s (parsed_clean OK _ _ _ P)) as (_ & Q & _). rewrite Q in A. clear Q.
  assert (L : forall ty, In ty (session_items s) -> exists t n l, (exists kinds, of_kind kinds t) /\ parse_sdp_line t n = Ok l /\ l_type l = ty).
  { intros ty I. destruct (item_line _ _ _ P ty I) as (i & line & l & (N & B & R) & T). rewrite Forall_forall in F.
    destruct (F line (nth_error_In _ _ N)) as [C|C]; [contradiction|]. exists line. eexists. exists l. eauto. }
  assert (FIT : forall h' v, incl (flat_map SpecAnon.fields (h' ++ [v])) (flat_map SpecAnon.fields h ++ document_fields s) ->
    ports_fit (flat_map SpecAnon.fields (h' ++ [v]))).
  { intros h' v I. unfold ports_fit in *. etransitivity; [|exact PF]. apply distinct_incl, I. }
  assert (ATT : forall (l : list attr) g, (forall x, In x l -> In (TyAttribute x) (session_items s)) ->
    incl (flat_map SpecAnon.fields g ++ flat_map attr_fields l) (flat_map SpecAnon.fields h ++ document_fields s) ->
    Forall line_masked (attribute_lines (fst (mask_attrs l (after anon_new g))))).
  { intros l g I J. apply attributes_printed; [left; right; left; reflexivity|]. intros x' X.
    destruct (attrs_masked l g x' X) as (h' & x & X1 & -> & J'). destruct (L _ (I x X1)) as (t & n & y & K & R & T).
    refine (attr_masked_line h' x t n y K R T (FIT _ _ _)). exact (incl_tran J' J). }
  assert (LM : forall l, Forall line_again l -> Forall line_masked l) by (intros l K; eapply Forall_impl; [|exact K]; intros y Y; left; exact Y).
  unfold session_lines in A. inversion A as [|? ? A1 B1]; subst. inversion B1 as [|? ? A2 B2]; subst. inversion B2 as [|? ? A3 B3]; subst. clear A B1 B2.
  rewrite !Forall_app in B3. destruct B3 as (A4 & A5 & A6 & _ & A8).
  assert (DF : document_fields s = SpecAnon.fields (VSession s) ++ flat_map (fun m => SpecAnon.fields (VMedia m)) (s_media s)) by reflexivity.
  cbn [SpecAnon.fields] in DF.
  unfold mask_document, mask_session.
  pose proof (after_snoc h (VOrigin (s_origin s))) as H1. cbn [mask_val] in H1.
  destruct (mask_origin (s_origin s) (after anon_new h)) as (o1 & a1). cbn [snd] in H1. subst a1.
  set (h1 := h ++ [VOrigin (s_origin s)]).
  pose proof (after_snoc h1 (VOrigin (s_origin s))) as H2. cbn [mask_val] in H2.
  assert (GO : line_masked (printed_line (TyOrigin (fst (mask_origin (s_origin s) (after anon_new h1)))))).
  { destruct (L (TyOrigin (s_origin s))) as (t & n & y & K & R & T); [right; left; reflexivity|].
    refine (other_masked_line h1 (VOrigin (s_origin s)) _ _ t n y K R T _ eq_refl _ (FIT _ _ _)).
    - discriminate.
    - cbn [mask_val]. destruct (mask_origin (s_origin s) (after anon_new h1)). reflexivity.
    - unfold h1. rewrite !flat_map_app. cbn [flat_map SpecAnon.fields]. rewrite !app_nil_r, DF, <- !app_assoc.
      apply incl_app; [apply incl_appl, incl_refl|]. apply incl_app; apply incl_appr, incl_appl, incl_refl. }
  destruct (mask_origin (s_origin s) (after anon_new h1)) as (o' & a2). cbn [fst snd] in H2, GO. subst a2.
  set (h2 := h1 ++ [VOrigin (s_origin s)]).
  assert (I2 : incl (flat_map SpecAnon.fields h2) (flat_map SpecAnon.fields h ++ origin_fields (s_origin s))).
  { unfold h2, h1. rewrite !flat_map_app. cbn [flat_map SpecAnon.fields]. rewrite !app_nil_r.
    apply incl_app; [apply incl_refl|apply incl_appr, incl_refl]. }
  assert (CO : exists c' h3, (match s_connection s with
      | Some c => let '(r, a) := mask_connection c (after anon_new h2) in (Some r, a)
      | None => (None, after anon_new h2) end) = (c', after anon_new h3) /\
    Forall line_masked (map (fun c => printed_line (TyConnection c)) (of_option c')) /\
    incl (flat_map SpecAnon.fields h3) (flat_map SpecAnon.fields h ++ origin_fields (s_origin s) ++ option_fields connection_fields (s_connection s))).
  { destruct (s_connection s) as [c|] eqn:SC; cbn [option_fields].
    - pose proof (after_snoc h2 (VConnection c)) as H3. cbn [mask_val] in H3.
      assert (I3 : incl (flat_map SpecAnon.fields (h2 ++ [VConnection c])) (flat_map SpecAnon.fields h ++ origin_fields (s_origin s) ++ connection_fields c)).
      { rewrite flat_map_app. cbn [flat_map SpecAnon.fields]. rewrite app_nil_r, app_assoc. apply incl_app; [apply incl_appl, I2|apply incl_appr, incl_refl]. }
      assert (GC : line_masked (printed_line (TyConnection (fst (mask_connection c (after anon_new h2)))))).
      { destruct (L (TyConnection c)) as (t & n & y & K & R & T).
        { right. right. apply in_app_iff. right. apply in_app_iff. left. rewrite SC. left. reflexivity. }
        refine (other_masked_line h2 (VConnection c) _ _ t n y K R T _ eq_refl _ (FIT _ _ _)).
        - discriminate.
        - cbn [mask_val]. destruct (mask_connection c (after anon_new h2)). reflexivity.
        - eapply incl_tran; [exact I3|]. rewrite DF. cbn [option_fields]. rewrite <- !app_assoc.
          apply incl_app; [apply incl_appl, incl_refl|]. apply incl_appr.
          apply incl_app; [apply incl_appl, incl_refl|]. apply incl_appr, incl_appl, incl_refl. }
      destruct (mask_connection c (after anon_new h2)) as (c' & a3). cbn [fst snd] in *. subst a3.
      exists (Some c'), (h2 ++ [VConnection c]). split; [reflexivity|]. split; [constructor; [exact GC|constructor]|exact I3].
    - exists None, h2. split; [reflexivity|]. split; [constructor|]. rewrite app_nil_r. exact I2. }
  destruct CO as (c' & h3 & -> & GC & I3).
  assert (J3 : incl (flat_map SpecAnon.fields h3 ++ flat_map attr_fields (s_attribute s)) (flat_map SpecAnon.fields h ++ SpecAnon.fields (VSession s))).
  { cbn [SpecAnon.fields]. apply incl_app.
    - eapply incl_tran; [exact I3|]. apply incl_app; [apply incl_appl, incl_refl|]. apply incl_appr.
      apply incl_app; [apply incl_appl, incl_refl|]. apply incl_appr, incl_appl, incl_refl.
    - apply incl_appr, incl_appr, incl_appr, incl_refl. }
  assert (GA : Forall line_masked (attribute_lines (fst (mask_attrs (s_attribute s) (after anon_new h3))))).
  { apply ATT.
    - intros x X. right. right. apply in_app_iff. right. apply in_app_iff. right. apply in_app_iff. right. apply in_app_iff. left. apply in_map, X.
    - eapply incl_tran; [exact J3|]. unfold document_fields. apply incl_app; [apply incl_appl, incl_refl|apply incl_appr, incl_appl, incl_refl]. }
  pose proof (attrs_after (s_attribute s) h3) as H4.
  destruct (mask_attrs (s_attribute s) (after anon_new h3)) as (attrs & a4). cbn [fst snd] in *. subst a4.
  unfold session_lines. cbn [s_version s_origin s_session s_connection s_bandwidth s_timing s_attribute s_media].
  constructor; [left; exact A1|]. constructor; [exact GO|]. constructor; [left; exact A3|]. rewrite !Forall_app.
  split; [exact (LM _ A4)|]. split; [exact (LM _ A5)|]. split; [exact GC|]. split; [exact GA|].
  apply Forall_flat_map, Forall_forall. intros m' M.
  destruct (medias_masked _ _ _ M) as (h' & m & IM & -> & J).
  assert (JM : incl (flat_map SpecAnon.fields h' ++ flat_map attr_fields (m_attribute m)) (flat_map SpecAnon.fields h ++ document_fields s)).
  { rewrite flat_map_app in J. cbn [flat_map SpecAnon.fields] in J. rewrite app_nil_r in J. eapply incl_tran; [exact J|].
    unfold document_fields. rewrite app_assoc. apply incl_app; [apply incl_appl|apply incl_appr, incl_refl].
    rewrite flat_map_app. eapply incl_tran; [|exact J3]. apply incl_app; [apply incl_appl, incl_refl|]. apply incl_appr.
    clear. induction (s_attribute s) as [|x l IH]; [apply incl_refl|]. cbn [map flat_map SpecAnon.fields].
    apply incl_app; [apply incl_appl, incl_refl|apply incl_appr, IH]. }
  assert (GM : Forall line_masked (attribute_lines (fst (mask_attrs (m_attribute m) (after anon_new h'))))).
  { apply ATT; [|exact JM]. intros x X. right. right. do 4 (apply in_app_iff; right). apply in_flat_map. exists m. split; [exact IM|].
    unfold media_items. right. apply in_or_app. right. apply in_or_app. right. apply in_map, X. }
  rewrite Forall_flat_map in A8. rewrite Forall_forall in A8. specialize (A8 m IM). unfold media_lines in A8 |- *.
  inversion A8 as [|? ? C1 C2]; subst. rewrite !Forall_app in C2. destruct C2 as (C2 & C3 & _).
  unfold mask_media. destruct (mask_attrs (m_attribute m) (after anon_new h')) as (as' & a'). cbn [fst m_media m_bandwidth m_connection m_attribute] in *.
  constructor; [left; exact C1|]. rewrite !Forall_app. split; [exact (LM _ C2)|]. split; [exact (LM _ C3)|exact GM].
Qed.
End WithExt.

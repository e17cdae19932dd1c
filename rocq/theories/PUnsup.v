(** * Unsupported lines (proofs for C48) *)
From Coq Require Import List NArith ZArith Bool Ascii String Lia.
From Coq Require Import ZifyBool ZifyNat ZifyN.
From Verif Require Import Str Num Net Types Ext Show Address AttrParse Media Session.
From Verif Require Import StrLemmas NumLemmas NetLemmas.
From Verif Require Import SpecApi SpecDoc SpecVal SpecUnsup PPanic PDoc PDoc2 PDoc3 PDoc4.
From Verif Require Import PVal PVal2 PVal3 PVal4 PVal5 PVal6 PVal7 PVal8 PVal9.
Import ListNotations.
Open Scope N_scope.
Open Scope list_scope.

Definition usup {A} (r : res ierr A) : Prop := exists m, r = Err (EUnsupported m).

Lemma bind_usup : forall {A B} (x : res ierr A) (f : A -> res ierr B),
  usup (bind x f) <-> usup x \/ exists a, x = Ok a /\ usup (f a).
Proof.
  intros A B x f. unfold usup. destruct x as [a|e|]; cbn [bind]; split.
  - intro H. right. exists a. auto.
  - intros [(m & H)|(b & H & U)]; [discriminate|]. inv H. exact U.
  - intros (m & H). inv H. left. eauto.
  - intros [(m & H)|(b & H & U)]; [inv H; eauto | discriminate].
  - intros (m & H). discriminate.
  - intros [(m & H)|(b & H & U)]; discriminate.
Qed.
Lemma bind_nu : forall {A B} (x : res ierr A) (f : A -> res ierr B),
  ~ usup x -> (forall a, x = Ok a -> ~ usup (f a)) -> ~ usup (bind x f).
Proof. intros A B x f H1 H2 K. apply bind_usup in K. destruct K as [K|(a & Ha & K)]; eauto. eapply H2; eauto. Qed.
Lemma ok_nu : forall {A} (a : A), ~ usup (Ok a).
Proof. intros A a (m & H). discriminate. Qed.
Lemma panic_nu : forall {A}, ~ usup (@Panic ierr A).
Proof. intros A (m & H). discriminate. Qed.
Lemma mapM_nu : forall {A B} (f : A -> res ierr B) l, (forall x, In x l -> ~ usup (f x)) -> ~ usup (mapM f l).
Proof.
  intros A B f. induction l as [|x l IH]; intro H; cbn [mapM]; [apply ok_nu|].
  apply bind_nu; [apply H; now left|]. intros a _. apply bind_nu; [apply IH; intros; apply H; now right|].
  intros b _. apply ok_nu.
Qed.
Lemma foldM_nu : forall {A B} (f : B -> A -> res ierr B) l acc,
  (forall b x, In x l -> ~ usup (f b x)) -> ~ usup (foldM f l acc).
Proof.
  intros A B f. induction l as [|x l IH]; intros acc H; cbn [foldM]; [apply ok_nu|].
  apply bind_nu; [apply H; now left|]. intros a _. apply IH. intros; apply H; now right.
Qed.
Lemma idx_nu : forall {A} (l : list A) i, ~ usup (idx (E:=ierr) l i).
Proof. intros A l i. unfold idx. destruct (nth_error l i); [apply ok_nu | apply panic_nu]. Qed.

Section WithExt.
Context {E : Ext}.

Lemma map_err_nu : forall {F A} (f : F -> ierr) (x : res F A), (forall e m, f e <> EUnsupported m) ->
  ~ usup (res_map_err f x).
Proof. intros F A f [a|e|] H (m & K); try discriminate. inv K. eapply H. eassumption. Qed.
Lemma gen_nu : forall {A} m, ~ usup (@Err ierr A (EGeneric m)).
Proof. intros A m (x & H). discriminate. Qed.

Ltac nu_step :=
  match goal with
  | |- usup ?x -> False => change (~ usup x)
  | |- ~ usup (Ok _) => apply ok_nu
  | |- ~ usup Panic => apply panic_nu
  | |- ~ usup (Err (EGeneric _)) => apply gen_nu
  | |- ~ usup (Err _) => let m := fresh in let H := fresh in intros (m & H); discriminate H
  | |- ~ usup (p_u8 _) => apply map_err_nu; discriminate
  | |- ~ usup (p_u16 _) => apply map_err_nu; discriminate
  | |- ~ usup (p_u32 _) => apply map_err_nu; discriminate
  | |- ~ usup (p_u64 _) => apply map_err_nu; discriminate
  | |- ~ usup (p_f32 _) => apply map_err_nu; discriminate
  | |- ~ usup (p_f64 _) => apply map_err_nu; discriminate
  | |- ~ usup (res_map_err _ _) => apply map_err_nu; discriminate
  | |- ~ usup (bind _ _) => apply bind_nu; [|intros ? _]
  | |- ~ usup (ok_or _ _) => unfold ok_or
  | |- ~ usup (mapM _ _) => apply mapM_nu; intros ? _
  | |- ~ usup (foldM _ _ _) => apply foldM_nu; intros ? ? _
  | |- ~ usup (up_to _ _ _) => unfold up_to
  | |- ~ usup (idx _ _) => apply idx_nu
  | |- ~ usup (let _ := _ in _) => cbv zeta
  | |- ~ usup (match ?x with _ => _ end) => destruct x
  end.
Ltac nu := repeat nu_step.

Lemma string_or_empty_nu : forall s, ~ usup (string_or_empty s).
Proof. intros. unfold string_or_empty. nu. Qed.
Lemma parse_payload_type_nu : forall s, ~ usup (parse_payload_type s).
Proof. intros. unfold parse_payload_type. nu. Qed.
Lemma parse_single_direction_nu : forall s, ~ usup (parse_single_direction s).
Proof. intros. unfold parse_single_direction. nu. Qed.
Lemma address_nu : forall s, ~ usup (address_from_str s).
Proof. intros s. unfold address_from_str. nu. Qed.
Lemma typed_address_nu : forall t s, ~ usup (typed_address_try_from t s).
Proof. intros. unfold typed_address_try_from. apply bind_nu; [apply address_nu|]. intros ? _. nu. Qed.
Lemma parse_network_type_nu : forall s, ~ usup (parse_network_type s).
Proof. intros. unfold parse_network_type. nu. Qed.
Lemma addr_type_nu : forall s, ~ usup (addr_type_from_str s).
Proof. intros. unfold addr_type_from_str. nu. Qed.
Lemma parse_address_type_nu : forall s, ~ usup (parse_address_type s).
Proof. intros. unfold parse_address_type. nu. Qed.

Ltac nu2_step :=
  match goal with
  | |- ~ usup (string_or_empty _) => apply string_or_empty_nu
  | |- ~ usup (parse_payload_type _) => apply parse_payload_type_nu
  | |- ~ usup (parse_single_direction _) => apply parse_single_direction_nu
  | |- ~ usup (address_from_str _) => apply address_nu
  | |- ~ usup (parse_unicast_address _) => apply address_nu
  | |- ~ usup (typed_address_try_from _ _) => apply typed_address_nu
  | |- ~ usup (parse_network_type _) => apply parse_network_type_nu
  | |- ~ usup (addr_type_from_str _) => apply addr_type_nu
  | |- ~ usup (parse_address_type _) => apply parse_address_type_nu
  | _ => nu_step
  end.
Ltac nu2 := repeat nu2_step.

(** Parsers that never find anything unsupported. *)
Lemma ssrc_set_nu : forall a s, ~ usup (ssrc_set_attribute a s).
Proof. intros a s. unfold ssrc_set_attribute. nu2. Qed.
Lemma parse_ssrc__nu : forall s, ~ usup (parse_ssrc_ s).
Proof. intros. unfold parse_ssrc_. repeat (nu2_step || apply ssrc_set_nu). Qed.
Lemma parse_ssrc_nu : forall s, ~ usup (parse_ssrc s).
Proof. intros. unfold parse_ssrc. apply bind_nu; [apply parse_ssrc__nu|]. intros ? _. nu2. Qed.
Lemma parse_sctp_port_nu : forall s, ~ usup (parse_sctp_port s).
Proof. intros. unfold parse_sctp_port. nu2. Qed.
Lemma candidate_extension_nu : forall c n v, ~ usup (candidate_extension c n v).
Proof. intros. unfold candidate_extension. nu2. Qed.
Lemma parse_dtls_message_nu : forall s, ~ usup (parse_dtls_message s).
Proof. intros. unfold parse_dtls_message. nu2. Qed.
Lemma parse_extmap_nu : forall s, ~ usup (parse_extmap s).
Proof. intros. unfold parse_extmap. nu2. Qed.
Lemma fmtp_parse_bool_nu : forall a b, ~ usup (fmtp_parse_bool a b).
Proof. intros. unfold fmtp_parse_bool. nu2. Qed.
Lemma fmtp_parameter_nu : forall p tok, ~ usup (fmtp_parameter p tok).
Proof. intros. unfold fmtp_parameter. repeat (nu2_step || apply fmtp_parse_bool_nu). Qed.
Lemma fmtp_block_nu : forall p tok, ~ usup (fmtp_block p tok).
Proof. intros. unfold fmtp_block. repeat (nu2_step || apply fmtp_parameter_nu). Qed.
Lemma parse_framerate_nu : forall s, ~ usup (parse_framerate s).
Proof. intros. unfold parse_framerate. nu2. Qed.
Lemma parse_ice_options_nu : forall s, ~ usup (parse_ice_options s).
Proof. intros. unfold parse_ice_options. nu2. Qed.
Lemma parse_ice_pacing_nu : forall s, ~ usup (parse_ice_pacing s).
Proof. intros. unfold parse_ice_pacing. nu2. Qed.

Lemma tokens_loop_nu : forall sep l k cur tokens, ~ usup (imageattr_tokens_loop sep k cur tokens l).
Proof.
  intros sep. induction l as [|t l IH]; intros k cur tokens; cbn [imageattr_tokens_loop]; [nu2|].
  repeat (nu2_step || apply IH || unfold i32_checked).
Qed.
Lemma parse_tokens_nu : forall s sep, ~ usup (parse_imageattr_tokens s sep).
Proof. intros. unfold parse_imageattr_tokens. apply tokens_loop_nu. Qed.
Lemma braced_nu : forall s m, ~ usup (braced_token s (EGeneric m)).
Proof. intros. unfold braced_token, slice_inner. nu2. Qed.
Lemma parse_xyrange_nu : forall s, ~ usup (parse_xyrange s).
Proof. intros s. unfold parse_xyrange. repeat (nu2_step || apply braced_nu). Qed.
Lemma parse_ps_range_nu : forall s, ~ usup (parse_ps_range s).
Proof. intros s. unfold parse_ps_range. nu2. Qed.
Lemma ascending_nu : forall l x, ~ usup (ascending x l).
Proof. induction l as [|y l IH]; intros x; cbn [ascending]; repeat (nu2_step || apply IH). Qed.
Lemma parse_sar_nu : forall s, ~ usup (parse_sar s).
Proof. intros s. unfold parse_sar. repeat (nu2_step || apply braced_nu || apply parse_ps_range_nu || apply ascending_nu). Qed.
Lemma parse_par_nu : forall s, ~ usup (parse_par s).
Proof. intros s. unfold parse_par. repeat (nu2_step || apply braced_nu || apply parse_ps_range_nu). Qed.
Lemma image_set_key_nu : forall acc t, ~ usup (image_set_key acc t).
Proof. intros acc t. unfold image_set_key. repeat (nu2_step || apply parse_sar_nu || apply parse_par_nu). Qed.
Lemma parse_image_set_nu : forall s, ~ usup (parse_image_set s).
Proof.
  intros s. unfold parse_image_set.
  repeat (nu2_step || apply parse_tokens_nu || apply parse_xyrange_nu || apply image_set_key_nu).
Qed.
Lemma parse_set_nu : forall s, ~ usup (parse_set s).
Proof. intros s. unfold parse_set. repeat (nu2_step || apply braced_nu || apply parse_image_set_nu). Qed.
Lemma more_sets_nu : forall l sets, ~ usup (more_sets sets l).
Proof. induction l as [|t l IH]; intros sets; cbn [more_sets]; repeat (nu2_step || apply parse_set_nu || apply IH). Qed.
Lemma image_set_list_nu : forall l, ~ usup (parse_image_set_list l).
Proof. intros l. unfold parse_image_set_list. repeat (nu2_step || apply parse_set_nu || apply more_sets_nu). Qed.
Lemma parse_image_attr_nu : forall s, ~ usup (parse_image_attr s).
Proof. intros s. unfold parse_image_attr. repeat (nu2_step || apply parse_tokens_nu || apply image_set_list_nu). Qed.

Lemma parse_msid_nu : forall s, ~ usup (parse_msid s).
Proof. intros. unfold parse_msid. nu2. Qed.
Lemma parse_msid_semantic_nu : forall s, ~ usup (parse_msid_semantic s).
Proof. intros. unfold parse_msid_semantic. nu2. Qed.
Lemma rid_parameter_nu : forall a p, ~ usup (rid_parameter a p).
Proof. intros [p d] s. unfold rid_parameter. nu2. Qed.
Lemma parse_rid_nu : forall s, ~ usup (parse_rid s).
Proof. intros s. unfold parse_rid. repeat (nu2_step || apply rid_parameter_nu). Qed.
Lemma parse_remote_candidates_nu : forall s, ~ usup (parse_remote_candidates s).
Proof. intros. unfold parse_remote_candidates. nu2. Qed.
Lemma parse_rtpmap_nu : forall s, ~ usup (parse_rtpmap s).
Proof. intros. unfold parse_rtpmap. nu2. Qed.
Lemma parse_rtcp_nu : forall s, ~ usup (parse_rtcp s).
Proof. intros. unfold parse_rtcp. nu2. Qed.
Lemma parse_sctpmap_nu : forall s, ~ usup (parse_sctpmap s).
Proof. intros. unfold parse_sctpmap. nu2. Qed.
Lemma parse_setup_nu : forall s, ~ usup (parse_setup s).
Proof. intros. unfold parse_setup. nu2. Qed.
Lemma version_list_nu : forall s, ~ usup (parse_simulcast_version_list s).
Proof. intros. unfold parse_simulcast_version_list. nu2. Qed.
Lemma parse_simulcast_nu : forall s, ~ usup (parse_simulcast s).
Proof. intros. unfold parse_simulcast. repeat (nu2_step || apply version_list_nu). Qed.
Lemma parse_version_nu : forall s, ~ usup (parse_version s).
Proof. intros. unfold parse_version. nu2. Qed.
Lemma parse_origin_nu : forall s, ~ usup (parse_origin s).
Proof. intros. unfold parse_origin. nu2. Qed.
Lemma parse_connection_nu : forall s, ~ usup (parse_connection s).
Proof. intros. unfold parse_connection. nu2. Qed.
Lemma parse_bandwidth_nu : forall s, ~ usup (parse_bandwidth s).
Proof. intros. unfold parse_bandwidth. nu2. Qed.
Lemma parse_timing_nu : forall s, ~ usup (parse_timing s).
Proof. intros. unfold parse_timing. nu2. Qed.

(** ** The parsers that do *)
Ltac ub H x Hx :=
  apply bind_usup in H; destruct H as [H|(x & Hx & H)];
  [exfalso; revert H; repeat (nu2_step || apply candidate_extension_nu)|].

Lemma sws_words : forall l, Forall word l -> split_whitespace (join [32] l) = l.
Proof.
  intros l F. apply words_sws. induction l as [|t l IH]; [constructor; constructor|].
  inversion F as [|? ? Wt Fl]; subst. destruct l as [|u l].
  - apply (words_last [] t); [constructor | exact Wt].
  - change (join [32] (t :: u :: l)) with ([] ++ t ++ 32 :: join [32] (u :: l)).
    apply words_more; [constructor | exact Wt | reflexivity | apply IH, Fl].
Qed.

Lemma extensions_usup : forall toks c, usup (candidate_extensions c toks) <->
  exists init n c', toks = init ++ [n] /\ candidate_extensions c init = Ok c'.
Proof.
  assert (G : forall k toks c, (List.length toks <= k)%nat ->
    (usup (candidate_extensions c toks) <->
     exists init n c', toks = init ++ [n] /\ candidate_extensions c init = Ok c')).
  { induction k as [|k IH]; intros toks c L.
    - destruct toks; [|cbn in L; lia]. cbn [candidate_extensions]. split.
      + intro H. destruct (ok_nu _ H).
      + intros (i & n & c' & H & _). destruct i; discriminate.
    - destruct toks as [|a [|b rest]].
      + cbn [candidate_extensions]. split; [intro H; destruct (ok_nu _ H)|].
        intros (i & n & c' & H & _). destruct i; discriminate.
      + cbn [candidate_extensions]. split; [|intros _; eexists; reflexivity].
        intros _. exists [], a, c. split; reflexivity.
      + cbn in L. split.
        * cbn [candidate_extensions]. intro H. ub H d Hd.
          apply IH in H; [|lia]. destruct H as (i & n & c' & -> & H).
          exists (a :: b :: i), n, c'. split; [reflexivity|]. cbn [candidate_extensions].
          rewrite Hd. exact H.
        * intros (i & n & c' & Ei & H). destruct i as [|x [|y i]].
          -- discriminate.
          -- discriminate H.
          -- cbn [app] in Ei. injection Ei as <- <- Er. cbn [candidate_extensions] in H |- *.
             okb H d Hd. rewrite Hd. cbn [bind]. apply IH; [lia|]. eauto. }
  intros toks c. apply (G (List.length toks)). lia.
Qed.

Lemma candidate_usup : forall v, usup (parse_candidate (trim v)) <-> candidate_unsupported v.
Proof.
  intro v. unfold candidate_unsupported. split.
  - unfold parse_candidate. rewrite sws_trim.
    destruct (split_whitespace v) as [|t0 [|t1 [|t2 [|t3 [|t4 [|t5 [|t6 [|t7 more]]]]]]]] eqn:W;
      intro H; try (destruct H; discriminate).
    cbn [List.length Nat.ltb Nat.leb idx nth_error bind skipn] in H.
    ub H comp H1. ub H trans H2. ub H prio H3. ub H addr H4. ub H port H5.
    destruct (65535 <? port) eqn:L; [destruct H; discriminate|].
    destruct (str_eqb (to_lower t6) (lit "typ")) eqn:H6; [|destruct H; discriminate]. cbn [negb] in H.
    ub H ct H7. apply bind_usup in H. destruct H as [H|(c & _ & H)]; [|destruct (ok_nu _ H)].
    apply extensions_usup in H. destruct H as (init & n & c' & -> & H).
    exists (t0 :: t1 :: t2 :: t3 :: t4 :: t5 :: t6 :: t7 :: init), n,
      (join [32] (t0 :: t1 :: t2 :: t3 :: t4 :: t5 :: t6 :: t7 :: init)), c'.
    assert (F : Forall word (t0 :: t1 :: t2 :: t3 :: t4 :: t5 :: t6 :: t7 :: init)).
    { apply words_sws in W. apply Forall_forall. intros t Ht. apply (words_word _ _ _ W).
      change (In t ((t0 :: t1 :: t2 :: t3 :: t4 :: t5 :: t6 :: t7 :: init) ++ [n])).
      apply in_or_app. left. exact Ht. }
    split; [apply words_sws; exact W|]. pose proof (sws_words _ F) as W'.
    split; [apply words_sws; exact W'|].
    assert (P : parse_candidate (trim (join [32] (t0 :: t1 :: t2 :: t3 :: t4 :: t5 :: t6 :: t7 :: init)))
                = Ok (ACandidate c')).
    { unfold parse_candidate. rewrite sws_trim, W'.
      cbn [List.length Nat.ltb Nat.leb idx nth_error bind skipn].
      rewrite H1. cbn [bind]. rewrite H2. cbn [bind]. rewrite H3. cbn [bind]. rewrite H4. cbn [bind].
      rewrite H5. cbn [bind]. rewrite L, H6. cbn [negb]. rewrite H7. cbn [bind]. rewrite H. reflexivity. }
    apply candidate_iff in P. destruct P as (x & Hx & P). inv Hx. exact P.
  - intros (l & n & v' & c & Wv & Wl & C).
    assert (P : parse_candidate (trim v') = Ok (ACandidate c)) by (apply candidate_iff; eauto).
    apply words_sws in Wv, Wl. unfold parse_candidate in *. rewrite sws_trim in *. rewrite Wl in P. rewrite Wv.
    destruct l as [|t0 [|t1 [|t2 [|t3 [|t4 [|t5 [|t6 [|t7 more]]]]]]]]; try discriminate P.
    cbn [app List.length Nat.ltb Nat.leb idx nth_error bind skipn] in *.
    okb P comp H1. rewrite H1. cbn [bind]. okb P trans H2. rewrite H2. cbn [bind].
    okb P prio H3. rewrite H3. cbn [bind]. okb P addr H4. rewrite H4. cbn [bind].
    okb P port H5. rewrite H5. cbn [bind].
    destruct (65535 <? port); [discriminate|].
    destruct (str_eqb (to_lower t6) (lit "typ")); [|discriminate]. cbn [negb] in *.
    okb P ct H7. rewrite H7. cbn [bind]. okb P c' H. apply bind_usup. left.
    apply extensions_usup. eauto.
Qed.

Lemma fingerprint_usup : forall v, usup (parse_fingerprint (trim v)) <-> fingerprint_unsupported v.
Proof.
  intro v. unfold fingerprint_unsupported, parse_fingerprint. rewrite sws_trim. split.
  - destruct (split_whitespace v) as [|t0 [|t1 [|t2 more]]] eqn:W; intro H; try (destruct H; discriminate).
    cbn [List.length Nat.eqb negb idx nth_error bind] in H.
    apply bind_usup in H. destruct H as [H|(h & Hh & H)].
    + exists t0, t1. rewrite words_sws. split; [exact W|]. intros h K. apply hash_iff in K.
      rewrite K in H. destruct (ok_nu _ H).
    + exfalso. revert H. unfold parse_octets, fingerprint_try_from. nu2.
  - intros (t0 & t1 & W & N). apply words_sws in W. rewrite W.
    cbn [List.length Nat.eqb negb idx nth_error bind].
    apply bind_usup. left. unfold hash_type_from_name in *.
    match goal with |- usup (match ?x with _ => _ end) => destruct x as [h|] eqn:A end;
      [|eexists; reflexivity].
    exfalso. apply (N h). apply hash_iff. unfold hash_type_from_name. rewrite A. reflexivity.
Qed.

Lemma fmtp_usup : forall v, usup (parse_fmtp (trim v)) <-> fmtp_unsupported v.
Proof.
  intro v. unfold fmtp_unsupported, parse_fmtp. split.
  - intro H. exists (trim v). split; [apply core_trim_self|].
    destruct (splitn2_cases c_space (trim v)) as [[N W] | (x & y & Ev & N & W)]; rewrite W in H.
    + apply contains_not_In, N.
    + exfalso. revert H. cbn [List.length Nat.eqb negb idx nth_error bind skipn].
      repeat (nu2_step || apply fmtp_block_nu).
  - intros (t & C & N). apply core_trim in C. subst t.
    destruct (splitn2_cases c_space (trim v)) as [[_ W] | (x & y & Ev & _ & W)].
    + rewrite W. eexists. reflexivity.
    + exfalso. apply N. rewrite Ev. apply in_or_app. right. now left.
Qed.

Lemma table_none : forall {A} (t : list (str * A)) (name : A -> string),
  Forall (fun kv => fst kv = of_string (name (snd kv))) t ->
  (forall v, assoc_str (of_string (name v)) t = Some v) ->
  forall x, assoc_str x t = None <-> forall v, x <> of_string (name v).
Proof.
  intros A t name F C x. split.
  - intros H v K. rewrite K, C in H. discriminate.
  - intro H. destruct (assoc_str x t) as [v|] eqn:K; [|reflexivity].
    apply (table_iff t name F C) in K. destruct (H v K).
Qed.

Lemma group_usup : forall v, usup (parse_group (trim v)) <-> group_unsupported v.
Proof.
  intro v. unfold group_unsupported, parse_group. rewrite sws_trim.
  assert (T : forall x, assoc_str (to_upper x)
              [ (lit "LS", GLs); (lit "FID", GFid); (lit "SRF", GSrf); (lit "ANAT", GAnat);
                (lit "FEC", GFec); (lit "DDP", GDdp); (lit "BUNDLE", GBundle) ] = None <->
            forall g, ~ means_upper x (group_name g)).
  { intro x. rewrite (table_none _ group_name); [|repeat constructor|intros []; reflexivity].
    split; intros H g K; [apply means_upper_iff in K|]; try (destruct g; reflexivity); apply (H g);
      [exact K|]. apply means_upper_iff; [destruct g; reflexivity | exact K]. }
  split.
  - destruct (split_whitespace v) as [|x tags] eqn:W; intro H; [destruct H; discriminate|].
    exists x, tags. rewrite words_sws. split; [exact W|]. apply T.
    destruct (assoc_str _ _); [destruct (ok_nu _ H) | reflexivity].
  - intros (x & tags & W & N). apply words_sws in W. rewrite W. apply T in N. rewrite N.
    eexists. reflexivity.
Qed.
Lemma ssrc_group_usup : forall v, usup (parse_ssrc_group (trim v)) <-> ssrc_group_unsupported v.
Proof.
  intro v. unfold ssrc_group_unsupported, parse_ssrc_group. rewrite sws_trim.
  assert (T : forall x, assoc_str (to_upper x)
              [ (lit "DUP", SgDup); (lit "FID", SgFid); (lit "FEC", SgFec);
                (lit "FEC-FR", SgFecFr); (lit "SIM", SgSim) ] = None <->
            forall g, ~ means_upper x (ssrc_group_name g)).
  { intro x. rewrite (table_none _ ssrc_group_name); [|repeat constructor|intros []; reflexivity].
    split; intros H g K; [apply means_upper_iff in K|]; try (destruct g; reflexivity); apply (H g);
      [exact K|]. apply means_upper_iff; [destruct g; reflexivity | exact K]. }
  split.
  - destruct (split_whitespace v) as [|x ids] eqn:W; intro H; [destruct H; discriminate|].
    exists x, ids. rewrite words_sws. split; [exact W|]. apply T.
    destruct (assoc_str _ _); [|reflexivity]. exfalso. revert H.
    repeat (nu2_step || apply parse_ssrc_nu).
  - intros (x & ids & W & N). apply words_sws in W. rewrite W. apply T in N. rewrite N.
    eexists. reflexivity.
Qed.

Lemma fb_parameter_usup : forall k o, usup (rtcp_fb_parameter k o) <-> k <> FbTrrInt /\ ~ fb_parameter_ok k o.
Proof.
  intros k o. split.
  - intros (m & H). split.
    + intros ->. unfold rtcp_fb_parameter in H. destruct o as [x|]; [destruct (is_ok _)|]; discriminate.
    + intro K. destruct (fb_parameter_iff k o (match o with Some x => x | None => [] end)) as [_ Q].
      rewrite Q in H by auto. discriminate.
  - intros [N K]. destruct (rtcp_fb_parameter k o) as [p|e|] eqn:P.
    + apply fb_parameter_iff in P. tauto.
    + revert P. unfold rtcp_fb_parameter, usup.
      destruct k, o as [x|]; try congruence; try (destruct (mem_str _ _)); intro P; inv P; eauto.
    + revert P. unfold rtcp_fb_parameter.
      destruct k, o as [x|]; try discriminate; try (destruct (mem_str _ _)); try discriminate.
      destruct (is_ok _); discriminate.
Qed.
Lemma rtcp_fb_usup : forall v, usup (parse_rtcp_fb (trim v)) <-> rtcp_fb_unsupported v.
Proof.
  intro v. unfold rtcp_fb_unsupported, parse_rtcp_fb. split.
  - intro H. pose proof (splitn_nonempty 3 c_space (trim v)) as Hne.
    destruct (splitn 4 c_space (trim v)) as [|t0 [|t1 more]] eqn:S; [congruence|destruct H; discriminate|].
    cbn [nth_error] in H. exists (trim v), t0, t1, more. rewrite parts_splitn.
    split; [apply core_trim_self|]. split; [split; [discriminate | exact S]|].
    apply bind_usup in H. destruct H as [H|(k & Hk & H)].
    + left. intros k K. apply fb_type_iff in K. rewrite K in H. destruct (ok_nu _ H).
    + destruct (assoc_str _ _) as [k'|] eqn:A; inv Hk. apply fb_type_iff in A.
      apply bind_usup in H. destruct H as [H|(p & Hp & H)].
      * right. exists k. split; [exact A|]. apply fb_parameter_usup.
        replace (nth_error more 0) with (hd_error more) in H by (destruct more; reflexivity). exact H.
      * exfalso. revert H. nu2.
  - intros (t & pt & ty & more & C & P & H). apply core_trim in C. subst t.
    apply parts_splitn in P. destruct P as [_ S].
    change (splitn 4 c_space (trim v) = pt :: ty :: more) in S. rewrite S. cbn [nth_error].
    destruct H as [H|(k & Hk & H)].
    + apply bind_usup. left.
      match goal with |- usup (match ?x with _ => _ end) => destruct x as [k|] eqn:A end;
        [|eexists; reflexivity].
      apply fb_type_iff in A. destruct (H k A).
    + apply fb_type_iff in Hk. rewrite Hk. cbn [bind].
      replace (nth_error more 0) with (hd_error more) by (destruct more; reflexivity).
      apply bind_usup. left. apply fb_parameter_usup, H.
Qed.

Lemma media_usup : forall v, usup (parse_media (trim v)) <-> media_unsupported v.
Proof.
  intro v. unfold media_unsupported, parse_media. rewrite sws_trim. split.
  - destruct (split_whitespace v) as [|t0 [|t1 [|t2 [|t3 more]]]] eqn:W; intro H; try (destruct H; discriminate).
    cbn [List.length Nat.ltb Nat.leb idx nth_error bind skipn] in H.
    exists t0, t1, t2, (t3 :: more). rewrite words_sws. split; [exact W|]. split; [discriminate|].
    apply bind_usup in H. destruct H as [H|(m & Hm & H)].
    { left. intros m K. apply media_token_iff in K. rewrite K in H. destruct (ok_nu _ H). }
    right. apply media_token_iff in Hm. split; [exists m; exact Hm|].
    ub H port Hp. destruct (65535 <? port) eqn:L; [destruct H; discriminate|].
    ub H pc Hpc. split.
    { destruct (split c_slash t1) as [|p rest] eqn:S; [discriminate|].
      exists p, rest, port. rewrite fields_split. split; [exact S|].
      split; [apply port_iff; auto|]. destruct rest; [exact I|].
      exists pc. apply p_u32_iff; exact Hpc. }
    intros p K. apply protocol_iff in K. rewrite K in H. cbn [bind] in H. revert H. nu2.
  - intros (kind & port & proto & fmts & W & Hne & H).
    apply words_sws in W. rewrite W. destruct fmts as [|f fmts]; [congruence|].
    cbn [List.length Nat.ltb Nat.leb idx nth_error bind skipn].
    destruct H as [H|((m & Hk) & (p & rest & n & F & Hp & Hc) & N)].
    { apply bind_usup. left. destruct (parse_media_token kind) as [m|e|] eqn:P.
      - apply media_token_iff in P. destruct (H m P).
      - revert P. unfold parse_media_token. destruct (assoc_str _ _); intro P; inv P. eexists; reflexivity.
      - revert P. unfold parse_media_token. destruct (assoc_str _ _); discriminate. }
    apply media_token_iff in Hk. rewrite Hk. cbn [bind].
    apply fields_split in F. change (split c_slash port = p :: rest) in F. rewrite F.
    apply port_iff in Hp. destruct Hp as [Hp L]. rewrite Hp. cbn [bind]. rewrite L.
    assert (Hpc : exists k, match p :: rest with | _ :: c :: _ => p_u32 c | _ => Ok 0 end = Ok k).
    { destruct rest; [eauto|]. destruct Hc as (k & Hc). exists k. apply p_u32_iff; exact Hc. }
    destruct Hpc as (k & Hpc). rewrite Hpc. cbn [bind]. apply bind_usup. left.
    destruct (parse_protocol_token proto) as [q|e|] eqn:P.
    + apply protocol_iff in P. destruct (N q P).
    + revert P. unfold parse_protocol_token. destruct (assoc_str _ _); intro P; inv P. eexists; reflexivity.
    + revert P. unfold parse_protocol_token. destruct (assoc_str _ _); discriminate.
Qed.

(** ** Attributes *)
Ltac inhabit T := let X := fresh "X" in assert (X : T) by (repeat econstructor).
Lemma row_named : forall n p, In (n, p) attr_parsers -> exists a, n = of_string (sdp_name a).
Proof.
  intros n p H.
  inhabit candidate. inhabit dtls_message. inhabit extmap. inhabit fingerprint. inhabit fmtp.
  inhabit f64. inhabit group. inhabit image_attr. inhabit msid. inhabit msid_semantic. inhabit rid.
  inhabit remote_candidate. inhabit rtpmap. inhabit rtcp. inhabit rtcp_fb. inhabit sctpmap.
  inhabit setup. inhabit simulcast. inhabit ssrc. inhabit ssrc_group_semantic.
  assert (G : Forall (fun k => exists a, k = of_string (sdp_name a)) (map fst attr_parsers)).
  { unfold attr_parsers. cbn [map fst].
    repeat (apply Forall_cons; [first
      [ exists ABundleOnly; reflexivity | exists AEndOfCandidates; reflexivity
      | exists AIceLite; reflexivity | exists AIceMismatch; reflexivity | exists AExtmapAllowMixed; reflexivity
      | exists AInactive; reflexivity | exists ARecvonly; reflexivity | exists ARtcpMux; reflexivity
      | exists ARtcpMuxOnly; reflexivity | exists ARtcpRsize; reflexivity | exists ASendonly; reflexivity
      | exists ASendrecv; reflexivity
      | eexists (ACandidate _); reflexivity | eexists (ADtlsMessage _); reflexivity
      | eexists (AExtmap _); reflexivity | eexists (AFingerprint _); reflexivity
      | eexists (AFmtp _); reflexivity | eexists (AFrameRate _); reflexivity
      | eexists (AGroup _); reflexivity | exists (AIceOptions []); reflexivity
      | exists (AIcePacing 0); reflexivity | exists (AIcePwd []); reflexivity
      | exists (AIceUfrag []); reflexivity | exists (AIdentity []); reflexivity
      | exists (ALabel []); reflexivity | exists (AMid []); reflexivity
      | eexists (AImageAttr _); reflexivity | exists (AMaxMessageSize 0); reflexivity
      | exists (AMaxPtime 0); reflexivity | exists (APtime 0); reflexivity
      | eexists (AMsid _); reflexivity | eexists (AMsidSemantic _); reflexivity
      | eexists (ARid _); reflexivity | eexists (ARemoteCandidate _); reflexivity
      | eexists (ARtpmap _); reflexivity | eexists (ARtcp _); reflexivity
      | eexists (ARtcpfb _); reflexivity | eexists (ASctpmap _); reflexivity
      | exists (ASctpPort 0); reflexivity | eexists (ASetup _); reflexivity
      | eexists (ASimulcast _); reflexivity | eexists (ASsrc _); reflexivity
      | eexists (ASsrcGroup _ []); reflexivity ]|]).
    constructor. }
  rewrite Forall_forall in G. apply G.
  change n with (fst (n, p)). apply in_map, H.
  Unshelve. all: assumption.
Qed.
Lemma name_known : forall a, assoc_str (of_string (sdp_name a)) attr_parsers <> None.
Proof. intros []; discriminate. Qed.
Lemma assoc_named : forall name, assoc_str (to_lower name) attr_parsers = None <-> ~ attribute_named name.
Proof.
  intro name. unfold attribute_named. split.
  - intros H (a & M). apply means_iff in M; [|apply names_lower]. rewrite M in H. exact (name_known a H).
  - intro H. destruct (assoc_str (to_lower name) attr_parsers) as [p|] eqn:A; [|reflexivity].
    apply assoc_str_In in A. apply row_named in A. destruct A as (a & A). exfalso. apply H. exists a.
    apply means_iff; [apply names_lower | exact A].
Qed.
Lemma flag_known : forall n, mem_str n flag_names = true -> assoc_str n attr_parsers <> None.
Proof.
  intros n H. apply mem_str_In in H. unfold flag_names in H. cbn [In] in H.
  repeat (destruct H as [<-|H]; [discriminate|]). contradiction.
Qed.

Definition value_unsupported_as (n rest : str) : Prop :=
  (n = lit "candidate" /\ candidate_unsupported rest) \/
  (n = lit "fingerprint" /\ fingerprint_unsupported rest) \/
  (n = lit "fmtp" /\ fmtp_unsupported rest) \/
  (n = lit "group" /\ group_unsupported rest) \/
  (n = lit "rtcp-fb" /\ rtcp_fb_unsupported rest) \/
  (n = lit "ssrc-group" /\ ssrc_group_unsupported rest).
Lemma row_usup : forall n p rest, In (n, p) attr_parsers -> usup (p (trim rest)) ->
  value_unsupported_as n rest.
Proof.
  intros n p rest H U. unfold value_unsupported_as. unfold attr_parsers in H. cbn [In] in H.
  repeat (destruct H as [H|H]; [apply pair_equal_spec in H; destruct H as [Hn Hp]; subst p; cbn beta in U;
    first [ destruct (ok_nu _ U)
          | destruct (parse_dtls_message_nu _ U) | destruct (parse_image_attr_nu _ U)
          | destruct (parse_msid_semantic_nu _ U) | destruct (parse_ice_pacing_nu _ U)
          | destruct (parse_rid_nu _ U) | destruct (parse_sctp_port_nu _ U) | destruct (parse_extmap_nu _ U)
          | destruct (parse_framerate_nu _ U) | destruct (parse_ice_options_nu _ U)
          | destruct (parse_msid_nu _ U) | destruct (parse_remote_candidates_nu _ U)
          | destruct (parse_rtpmap_nu _ U) | destruct (parse_rtcp_nu _ U) | destruct (parse_sctpmap_nu _ U)
          | destruct (parse_setup_nu _ U) | destruct (parse_simulcast_nu _ U) | destruct (parse_ssrc_nu _ U)
          | apply candidate_usup in U; left; split; [symmetry; exact Hn | exact U]
          | apply fingerprint_usup in U; right; left; split; [symmetry; exact Hn | exact U]
          | apply fmtp_usup in U; right; right; left; split; [symmetry; exact Hn | exact U]
          | apply group_usup in U; right; right; right; left; split; [symmetry; exact Hn | exact U]
          | apply rtcp_fb_usup in U; right; right; right; right; left; split; [symmetry; exact Hn | exact U]
          | apply ssrc_group_usup in U; right; right; right; right; right; split; [symmetry; exact Hn | exact U]
          | exfalso; revert U; nu2; fail ]|]).
  contradiction.
Qed.
Lemma row_usup_bwd : forall n rest, value_unsupported_as n rest ->
  mem_str n flag_names = false /\
  exists p, assoc_str n attr_parsers = Some p /\ usup (p (trim rest)).
Proof.
  intros n rest H. unfold value_unsupported_as in H.
  destruct H as [[-> H]|[[-> H]|[[-> H]|[[-> H]|[[-> H]|[-> H]]]]]];
    (split; [reflexivity|]); (eexists; split; [reflexivity|]).
  - apply candidate_usup, H.
  - apply fingerprint_usup, H.
  - apply fmtp_usup, H.
  - apply group_usup, H.
  - apply rtcp_fb_usup, H.
  - apply ssrc_group_usup, H.
Qed.
Lemma unsupported_as_iff : forall name rest, value_unsupported_as (to_lower name) rest <->
    ((means name "candidate" /\ candidate_unsupported rest) \/
     (means name "fingerprint" /\ fingerprint_unsupported rest) \/
     (means name "fmtp" /\ fmtp_unsupported rest) \/
     (means name "group" /\ group_unsupported rest) \/
     (means name "rtcp-fb" /\ rtcp_fb_unsupported rest) \/
     (means name "ssrc-group" /\ ssrc_group_unsupported rest)).
Proof.
  intros name rest. unfold value_unsupported_as.
  rewrite !means_iff by reflexivity. reflexivity.
Qed.

Lemma attribute_usup : forall v, usup (attr_from_str (trim v)) <-> attribute_unsupported v.
Proof.
  intro v. unfold attr_from_str, attribute_unsupported. split.
  - intro H. exists (trim v).
    destruct (splitn2_cases c_colon (trim v)) as [[N W] | (x & y & Ev & N & W)]; rewrite W in H;
      cbn [idx nth_error bind List.length Nat.ltb Nat.leb] in H; cbn [andb] in H;
      apply contains_not_In in N.
    + exists (trim v), []. split; [apply core_trim_self|]. split; [left; auto|].
      destruct (assoc_str (to_lower (trim v)) attr_parsers) as [p|] eqn:A.
      * right. apply unsupported_as_iff. apply assoc_str_In in A.
        apply (row_usup _ p); [exact A | exact H].
      * left. apply assoc_named, A.
    + exists x, y. split; [apply core_trim_self|]. split; [right; split; assumption|].
      destruct (mem_str (to_lower x) flag_names); [destruct H; discriminate|].
      destruct (assoc_str (to_lower x) attr_parsers) as [p|] eqn:A.
      * right. apply unsupported_as_iff. apply assoc_str_In in A.
        apply (row_usup _ p); [exact A | exact H].
      * left. apply assoc_named, A.
  - intros (t & name & rest & C & D & H). apply core_trim in C. subst t.
    assert (G : mem_str (to_lower name) flag_names = false /\
      (assoc_str (to_lower name) attr_parsers = None \/
       exists p, assoc_str (to_lower name) attr_parsers = Some p /\ usup (p (trim rest)))).
    { destruct H as [H|H].
      - apply assoc_named in H. split; [|left; exact H].
        destruct (mem_str (to_lower name) flag_names) eqn:M; [|reflexivity].
        destruct (flag_known _ M H).
      - apply unsupported_as_iff in H. apply row_usup_bwd in H. tauto. }
    clear H. destruct G as [F G].
    assert (Q : forall val, val = trim rest -> usup (match assoc_str (to_lower name) attr_parsers with
       | Some p => p val | None => Err (unsupf "Unknown attribute type {}" [to_lower name]) end)).
    { intros val ->. destruct G as [G|(p & G & U)]; rewrite G; [eexists; reflexivity | exact U]. }
    destruct D as [(N & -> & ->)|Ct].
    + destruct (splitn2_cases c_colon (trim v)) as [[_ W] | (x & y & Ev & _ & _)].
      2: { exfalso. apply N. rewrite Ev. apply in_or_app. right. now left. }
      rewrite W. cbn [idx nth_error bind List.length Nat.ltb Nat.leb]. cbn [andb]. apply Q. reflexivity.
    + apply cut_splitn2 in Ct. change 58 with c_colon in Ct. rewrite Ct.
      cbn [idx nth_error bind List.length Nat.ltb Nat.leb]. cbn [andb]. rewrite F. apply Q. reflexivity.
Qed.

(** ** Lines *)
Lemma value_usup : forall c v, usup (parse_value [c] (trim v) v) <->
  (c = 97 /\ attribute_unsupported v) \/ (c = 109 /\ media_unsupported v).
Proof.
  intros c v. unfold parse_value.
  Ltac letter_u c k := destruct (str_eqb_spec [c] (lit k)) as [Hc|Hc];
    [injection Hc as Hc; rewrite Hc; clear Hc |].
  assert (D : forall r : res ierr sdp_type, ~ usup r -> c <> 97 -> c <> 109 -> usup r <->
    (c = 97 /\ attribute_unsupported v) \/ (c = 109 /\ media_unsupported v)).
  { intros r N A M. split; [intro U; destruct (N U)|]. intros [[K _]|[K _]]; contradiction. }
  letter_u c "a"%string.
  { unfold parse_attribute. rewrite trim_idem, bind_usup, attribute_usup. split.
    - intros [U|(a & _ & U)]; [left; auto | destruct (ok_nu _ U)].
    - intros [[_ U]|[K _]]; [left; exact U | discriminate]. }
  assert (Na : c <> 97) by (intros ->; apply Hc; reflexivity). clear Hc.
  destruct (N.eq_dec c 109) as [->|Nm].
  { cbv beta. change (str_eqb [109] (lit "b")) with false. change (str_eqb [109] (lit "c")) with false.
    change (str_eqb [109] (lit "e")) with false. change (str_eqb [109] (lit "i")) with false.
    change (str_eqb [109] (lit "k")) with false. change (str_eqb [109] (lit "m")) with true. cbv iota.
    rewrite media_usup. split; [intro U; right; auto | intros [[K _]|[_ U]]; [discriminate | exact U]]. }
  apply D; [|exact Na | exact Nm]. clear D.
  destruct (str_eqb_spec [c] (lit "m")) as [Hm|_]; [injection Hm as Hm; contradiction|].
  repeat (first [apply parse_bandwidth_nu | apply parse_connection_nu | apply parse_origin_nu
    | apply parse_timing_nu | apply parse_version_nu | nu2_step | unfold parse_session_name]).
Qed.

Lemma line_unsupported_iff : forall line n,
  (exists e, parse_sdp_line line n = Err (PUnsupported e line n)) <-> line_unsupported line.
Proof.
  intros line n. split.
  - intros (e & H). unfold parse_sdp_line in H.
    destruct (contains c_eq line) eqn:Ce; cbn [negb] in H; [|discriminate].
    destruct (splitn2_cases c_eq line) as [[N W] | (t & v & El & N & W)]; [congruence|].
    rewrite W in H. cbv zeta in H.
    destruct (N.ltb_spec 1 (byte_len (trim t))); [discriminate|].
    destruct (is_empty (trim t)) eqn:Em; [discriminate|]. apply is_empty_false in Em.
    destruct (is_empty (trim v) && negb (str_eqb (to_lower (trim t)) (lit "s"))) eqn:Ev; [discriminate|].
    destruct (byte_one _ Em H0) as (c & Et & Lc). rewrite Et, lower_one in * by exact Lc.
    destruct (parse_value [ascii_lower c] (trim v) v) as [ty|x|] eqn:P; try discriminate.
    assert (U : usup (parse_value [ascii_lower c] (trim v) v)).
    { rewrite P. destruct x; inv H. eexists. reflexivity. }
    apply value_usup in U.
    destruct (trim_decompose t) as (w1 & w2 & Eq & B1 & B2). rewrite Et in Eq.
    exists w1, c, w2, v. rewrite El, Eq. split; [rewrite <- !app_assoc; reflexivity|].
    split; [apply blank_forallb; exact B1|]. split; [apply blank_forallb; exact B2|].
    split.
    { intro Bv. apply blank_forallb in Bv. assert (Tv : trim v = []).
      { symmetry. apply core_trim. exists v, []. rewrite app_nil_r. split; [reflexivity|].
        split; [apply blank_forallb, Bv|]. split; [constructor|]. now left. }
      rewrite Tv in Ev. cbn [is_empty andb] in Ev.
      destruct (str_eqb_spec [ascii_lower c] (lit "s")) as [K|K]; [|discriminate].
      injection K as K. destruct U as [[U _]|[U _]]; rewrite U in K; discriminate. }
    destruct U as [[U1 U2]|[U1 U2]]; [left|right]; (split; [|exact U2]); unfold same_letter; rewrite U1; reflexivity.
  - intros (w1 & c & w2 & v & El & B1 & B2 & Nb & T).
    apply blank_forallb in B1, B2.
    assert (Sl : ascii_lower c = 97 \/ ascii_lower c = 109).
    { destruct T as [[K _]|[K _]]; unfold same_letter in K; rewrite K; auto. }
    assert (Lc : c < 128 /\ c <> 61 /\ is_ws c = false).
    { unfold ascii_lower in Sl. destruct ((65 <=? c) && (c <=? 90)) eqn:K.
      - split; [lia|]. split; [lia|]. unfold is_ws. lia.
      - assert (Q : c = 97 \/ c = 109) by exact Sl. split; [lia|]. split; [lia|]. unfold is_ws. lia. }
    destruct Lc as (Lc & Nc & Wc).
    assert (Ct : cut 61 line (w1 ++ [c] ++ w2) v).
    { split; [rewrite El, <- !app_assoc; reflexivity|]. intro I.
      rewrite forallb_forall in B1, B2.
      apply in_app_or in I. destruct I as [I|I]; [apply B1 in I; discriminate|].
      apply in_app_or in I. destruct I as [[I|[]]|I]; [congruence|]. apply B2 in I. discriminate. }
    assert (Tt : trim (w1 ++ [c] ++ w2) = [c]).
    { symmetry. apply core_trim. exists w1, w2. split; [reflexivity|].
      split; [apply blank_forallb; exact B1|]. split; [apply blank_forallb; exact B2|].
      right. split; [exists c, []; auto | exists c, []; auto]. }
    assert (U : usup (parse_value [ascii_lower c] (trim v) v)).
    { apply value_usup. destruct T as [[K U]|[K U]]; [left|right]; (split; [exact K | exact U]). }
    destruct U as (m & U). exists (EUnsupported m).
    unfold parse_sdp_line.
    pose proof (cut_In _ _ _ _ Ct) as Ie. apply contains_In in Ie. change (contains c_eq line = true) in Ie.
    rewrite Ie. cbn [negb]. apply cut_splitn2 in Ct. change 61 with c_eq in Ct. rewrite Ct. cbv zeta.
    rewrite Tt. assert (Bl : byte_len [c] = 1).
    { unfold byte_len. cbn [fold_right]. unfold utf8_len. destruct (N.ltb_spec c 128); [reflexivity | lia]. }
    rewrite Bl. cbn [N.ltb N.compare Pos.compare Pos.compare_cont is_empty].
    rewrite lower_one by exact Lc.
    destruct (is_empty (trim v)) eqn:Em.
    { exfalso. apply Nb. apply is_empty_true in Em. destruct (trim_decompose v) as (x & y & Ex & Bx & By).
      rewrite Em in Ex. rewrite Ex. cbn [app]. unfold blank. apply Forall_app.
      split; apply blank_forallb; assumption. }
    cbn [andb]. rewrite U. reflexivity.
Qed.
Lemma means_not_unsupported : forall line ty, countable ty (List.length line) -> line_means line ty ->
  ~ line_unsupported line.
Proof.
  intros line ty C M U. apply (line_unsupported_iff _ 0%nat) in U. destruct U as (e & U).
  rewrite (line_bwd _ 0%nat _ C M) in U. discriminate.
Qed.

(** ** Documents *)
Lemma unsupported_message : forall line n e l k, parse_sdp_line line n = Err (PUnsupported e l k) ->
  exists m, e = EUnsupported m.
Proof.
  intros line n e l k H. unfold parse_sdp_line in H.
  destruct (negb _); [discriminate|]. destruct (splitn 2 c_eq line) as [|t [|v r]]; [discriminate| |].
  - cbv zeta in H. destruct (1 <? _); [discriminate|]. destruct (is_empty _); discriminate.
  - cbv zeta in H. destruct (1 <? _); [discriminate|]. destruct (is_empty (trim t)); [discriminate|].
    destruct (_ && _); [discriminate|]. destruct (parse_value _ _ _) as [x|x|]; try discriminate.
    unfold line_error in H. destruct x; inv H. eauto.
Qed.
Lemma reads_read : forall ls n ts ws, Reads n ls ts ws ->
  exists us, lines_read n ls ts us /\ Forall2 warning_for ws us.
Proof.
  induction ls as [|x ls IH]; intros n ts ws H; inversion H; subst.
  - exists []. split; constructor.
  - match goal with K : Reads _ ls _ _ |- _ => apply IH in K; destruct K as (us & K1 & K2) end.
    exists us. split; [apply read_blank; assumption | exact K2].
  - match goal with K : Reads _ ls _ _ |- _ => apply IH in K; destruct K as (us & K1 & K2) end.
    match goal with K : parse_sdp_line _ _ = Ok _ |- _ => apply line_fwd in K; destruct K as (_ & _ & K) end.
    exists us. split; [apply read_line; assumption | exact K2].
  - match goal with K : Reads _ ls _ _ |- _ => apply IH in K; destruct K as (us & K1 & K2) end.
    exists ((x, n) :: us). split.
    + apply read_unsupported; [assumption| |exact K1]. apply (line_unsupported_iff _ n). eauto.
    + constructor; [|exact K2]. unfold warning_for. cbn [fst snd].
      match goal with K : parse_sdp_line _ _ = Err _ |- _ => apply unsupported_message in K; destruct K as (m & ->) end.
      exists m. reflexivity.
Qed.
Lemma read_reads : forall ls n ts us, lines_read n ls ts us -> Forall (fun x => short (List.length x)) ls ->
  exists ws, Reads n ls ts ws /\ Forall2 warning_for ws us.
Proof.
  intros ls n ts us H. induction H as [n|n x ls ts us B H IH|n x ls ty ts us B M H IH|n x ls ts us B U H IH]; intro F.
  - exists []. split; constructor.
  - inversion F as [|? ? Sx F']; subst. destruct (IH F') as (ws & R & W). exists ws.
    split; [apply Reads_blank; assumption | exact W].
  - inversion F as [|? ? Sx F']; subst. destruct (IH F') as (ws & R & W). exists ws. split; [|exact W].
    pose proof (line_bwd x n ty) as P.
    apply (Reads_line n x ls ts ws {| l_number := n; l_type := ty; l_text := x |}); [exact B| |exact R].
    apply P; [|exact M]. destruct ty as [[]| | | | | | |]; try exact I. exact Sx.
  - inversion F as [|? ? Sx F']; subst. destruct (IH F') as (ws & R & W).
    apply (line_unsupported_iff _ n) in U. destruct U as (e & U). exists (PUnsupported e x n :: ws).
    split; [apply Reads_warning; assumption|]. constructor; [|exact W].
    apply unsupported_message in U. destruct U as (m & ->). exists m. reflexivity.
Qed.
Lemma relaxed_document : forall d s us, doc_ok d -> short (List.length (doc_text d)) ->
  ((exists ws, parse_sdp (doc_text d) false = Ok (with_warnings s ws) /\ Forall2 warning_for ws us) <->
   51 <= byte_len (doc_text d) /\
   exists ts, lines_read 0 (doc_lines d) ts us /\ (4 <= List.length ts)%nat /\ Assembles ts s /\ structural s).
Proof.
  intros d s us D L.
  assert (F : Forall (fun x => short (List.length x)) (doc_lines d)).
  { apply Forall_forall. intros x I. rewrite <- (lines_doc d D) in I. apply lines_length in I.
    unfold short in *. lia. }
  split.
  - intros (ws & P & W). apply document in P. rewrite (lines_doc d D) in P.
    destruct P as (B & ts & ws' & R & Ew & _ & R4 & A & St). cbn [with_warnings s_warnings] in Ew. subst ws'.
    split; [exact B|]. exists ts. apply reads_read in R. destruct R as (us' & R & W').
    assert (us' = us).
    { clear -W W'. revert us us' W W'. induction ws as [|w ws IH]; intros us us' W W'.
      - inversion W; inversion W'; subst; reflexivity.
      - inversion W as [|? [l1 n1] ? us1 (m1 & E1) W1]; inversion W' as [|? [l2 n2] ? us2 (m2 & E2) W2]; subst.
        cbn [fst snd] in *. inv E2. f_equal. apply IH; assumption. }
    subst us'. split; [exact R|]. split; [exact R4|]. 
    split; [exact (proj1 (Assembles_warnings _ _ _) A) | exact (proj1 (structural_warnings _ _) St)].
  - intros (B & ts & R & R4 & A & St). apply read_reads in R; [|exact F]. destruct R as (ws & R & W).
    exists ws. split; [|exact W]. apply document. rewrite (lines_doc d D). split; [exact B|].
    exists ts, ws. split; [exact R|]. split; [reflexivity|]. split; [discriminate|]. split; [exact R4|].
    split; [apply Assembles_warnings, A | apply structural_warnings, St].
Qed.
End WithExt.

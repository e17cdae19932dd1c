(** * Lines of the RFCs are printed as lines of the RFCs (C80): all of them *)
From Coq Require Import List Arith NArith ZArith Lia Bool Ascii String.
From Coq Require Import ZifyBool ZifyNat ZifyN.
From Verif Require Import Str Num Net Types Ext Show Address AttrParse Media Session SpecApi SpecDoc SpecVal SpecItems
  SpecPrint SpecIp SpecGrammar.
From Verif Require Import StrLemmas NumLemmas NetLemmas PVal PVal2 PVal6 PVal8 PVal9 PVal10 PVal11 PPrint PPrint2 PPrint3 PPrint4
  PPrint9 PPrint11 PIp PIp2 PDoc3 PExt0 PSettle.
From Verif Require Import SpecRfc PRfc PRfc2 PRfc3 PRfc4 PRfc5 PRfc7 PRfc9 PRfc16 PRfc17 PRfc18 PRfc19 PRfc20 PRfc21.
Import ListNotations.
Open Scope N_scope.
Open Scope list_scope.

Section WithExt.
Context {E : Ext}.
Hypothesis OK : ext_ok E.
Lemma values_again : forall nv, In nv rfc_values -> fst nv <> "fmtp"%string -> fst nv <> "ssrc"%string -> again_of nv.
Proof.
  intros nv M. revert nv M.
  assert (F : Forall (fun nv => fst nv <> "fmtp"%string -> fst nv <> "ssrc"%string -> again_of nv) rfc_values).
  { unfold rfc_values. fa; intros D1 D2; cbn [fst] in D1, D2.
  - exact (a_candidate OK).
  - exact (a_remote_candidates OK).
  - exact a_fingerprint.
  - exact a_extmap.
  - exact a_group.
  - exact a_msid.
  - exact a_msid_semantic.
  - exact a_rtpmap.
  - exact (a_rtcp OK).
  - exact a_rtcp_fb.
  - congruence.
  - exact a_ssrc_group.
  - exact a_simulcast.
  - exact a_rid.
  - congruence.
  - exact a_ice_ufrag.
  - exact a_ice_pwd.
  - exact a_ice_options.
  - exact a_ice_pacing.
  - exact a_mid.
  - exact a_label.
  - exact a_identity.
  - exact a_setup.
  - exact a_sctp_port.
  - exact a_sctpmap.
  - exact a_max_message_size.
  - exact a_ptime.
  - exact a_maxptime.
  - exact a_dtls_message. }
  rewrite Forall_forall in F. exact F.
Qed.
Lemma flag_again : forall a, flag_attribute a -> retaken (Cat (Lit "a=") (Lit (sdp_name a))) (sdp_name a) (lit "a=" ++ of_string (sdp_name a)).
Proof.
  intros a F n. exists (TyAttribute a).
  assert (P : printed_line (TyAttribute a) = lit "a=" ++ of_string (sdp_name a)) by (destruct a; try (exfalso; exact F); reflexivity).
  split; [|split; [reflexivity|rewrite P; apply (gen_cat _ _ (lit "a=")); constructor]].
  destruct (name_word a) as (N1 & N2 & N3). apply line_iff.
  - destruct a; try exact I. destruct F.
  - split; [reflexivity|]. split; [reflexivity|]. cbn [l_type l_text]. exists [], 97, [], (of_string (sdp_name a)).
    split; [reflexivity|]. split; [constructor|]. split; [constructor|]. split; [reflexivity|].
    exists (of_string (sdp_name a)). split; [apply word_core, N1|]. left. auto.
Qed.
Lemma value_again : forall name rule v, again rule name v ->
  retaken (cats [Lit "a="; Lit name; Lit ":"; rule]) name (lit "a=" ++ of_string name ++ 58 :: v).
Proof.
  intros name rule v (a & u & <- & N & V & S & G) n. exists (TyAttribute a).
  split; [apply attr_line; assumption|]. split; [reflexivity|].
  unfold printed_line. cbn [line_letter item_text]. rewrite S.
  parts [lit "a="; of_string (sdp_name a); lit ":"; u]; [exact G|flat].
Qed.
Lemma lines_retaken : forall k r t, k <> "fmtp"%string -> k <> "ssrc"%string -> In (k, r) (rfc_attributes ++ rfc_lines) -> gen r t ->
  retaken r k t.
Proof.
  intros k r t D1 D2 M G. apply in_app_iff in M. destruct M as [M|M]; [|exact (lines_again OK k r t M G)].
  apply in_app_iff in M. destruct M as [M|M].
  - apply in_map_iff in M. destruct M as [n [Q M]]. injection Q as <- <-. apply g_inv_cat in G. destruct G as [x [y [-> [A B]]]].
    apply g_inv_lit in A. apply g_inv_lit in B. subst x y.
    assert (K : exists a, sdp_name a = n /\ flag_attribute a).
    { unfold flags in M. cbn [In] in M.
      destruct M as [<-|[<-|[<-|[<-|[<-|[<-|[<-|[<-|[<-|[<-|[<-|[<-|[]]]]]]]]]]]]];
        [exists ABundleOnly|exists AEndOfCandidates|exists AExtmapAllowMixed|exists AIceLite|exists AIceMismatch|exists AInactive
        |exists ARecvonly|exists ARtcpMux|exists ARtcpMuxOnly|exists ARtcpRsize|exists ASendonly|exists ASendrecv]; split; exact I || reflexivity. }
    destruct K as (a & <- & F). exact (flag_again a F).
  - apply in_map_iff in M. destruct M as [[name rule] [Q M]]. cbn [fst snd] in Q. injection Q as <- <-.
    change (gen (cats [Lit "a="; Lit name; Lit ":"; rule]) t) in G. pieces G.
    pose proof (values_again _ M D1 D2 x2 G2) as A. cbn [fst snd] in A.
    replace (List.concat [of_string "a="; of_string name; of_string ":"; x2]) with (lit "a=" ++ of_string name ++ 58 :: x2)
      by (cbn [List.concat app]; rewrite ?app_nil_r; reflexivity).
    exact (value_again _ _ _ A).
Qed.
(** ** ssrc *)
Lemma trim_row : forall P t, Forall P t -> Forall P (trim_end t).
Proof. intros P t F. destruct (trim_end_suffix t) as (w & Q & _). rewrite Q in F. apply Forall_app in F. apply F. Qed.
Lemma ssrc_parts : forall t n, gen (cats [Lit "a="; Lit "ssrc"; Lit ":"; rfc_ssrc]) t -> exists s,
  parse_sdp_line t n = Ok {| l_number := n; l_type := TyAttribute (ASsrc s); l_text := t |} /\
  (exists a, ssrc_attribute s = Some a /\ gen token a) /\
  (ssrc_value s <> Some [] -> gen (cats [Lit "a="; Lit "ssrc"; Lit ":"; rfc_ssrc]) (printed_line (TyAttribute (ASsrc s)))).
Proof.
  intros t n G. pieces G. rename x2 into v. replace (List.concat _) with (lit "a=" ++ of_string "ssrc" ++ 58 :: v)
      by (cbn [List.concat app]; rewrite ?app_nil_r; reflexivity).
  rename G2 into H. pieces H. pose proof G as T0. pose proof G1 as T1.
  apply PRfc.g_at_most in G. destruct G as (W & D & U). apply g_token in G1. destruct G1 as (W1 & F1).
  assert (S1 : ~ In 58 x1) by (apply (class_no _ _ _ F1); unfold token_char; lia).
  assert (S0 : ~ In 32 x) by (apply (class_no _ _ _ D); unfold SpecVal.is_digit; lia).
  assert (K : forall s, (exists rest, show_ssrc s = show_N (dec_value x) ++ rest) -> printed_line (TyAttribute (ASsrc s)) = lit "a=ssrc:" ++ show_ssrc s).
  { intros s [rest Q]. unfold printed_line. cbn [line_letter item_text show_attr]. rewrite Q.
    change (97 :: 61 :: attr_to_string TSsrc (show_N (dec_value x) ++ rest) = lit "a=ssrc:" ++ show_N (dec_value x) ++ rest).
    rewrite (words_shown TSsrc _ _ (word_N (dec_value x))). reflexivity. }
  apply g_inv_opt in G2. destruct G2 as [->|G2].
  - exists {| ssrc_id := dec_value x; ssrc_attribute := Some x1; ssrc_value := None |}. split; [|split; [exists x1; split; [reflexivity|exact T1]|]].
    + match goal with |- parse_sdp_line ?u _ = _ => replace u with (lit "a=" ++ of_string (sdp_name (ASsrc {| ssrc_id := dec_value x; ssrc_attribute := Some x1; ssrc_value := None |})) ++ 58 :: x ++ 32 :: x1) by flat end.
      apply attr_line; [|exact I]. 
      assert (En : ends_solid (x ++ 32 :: x1)) by (apply ends_app, ends_cons, word_ends, W1).
      rewrite trim_end_id; [|destruct En as [c [y [Q C]]]; exists y, c; auto].
      eexists. split; [apply core_self; [apply starts_app, word_starts, W|apply ends_app, ends_cons, word_ends, W1]|].
      right. exists x, x1. split; [split; [reflexivity|exact S0]|]. auto.
    + intros _. rewrite K by (eexists; reflexivity). unfold show_ssrc. cbn [ssrc_id ssrc_attribute ssrc_value show_opt].
      parts [lit "a="; lit "ssrc"; lit ":"; show_N (dec_value x) ++ 32 :: x1]; [|flat].
      parts [show_N (dec_value x); lit " "; x1; []:str]; [apply g_again, T0|exact T1|apply g_none|flat].
  - apply g_inv_cat in G2. destruct G2 as [u [w [-> [G2 V]]]]. apply g_inv_lit in G2. subst u.
    exists {| ssrc_id := dec_value x; ssrc_attribute := Some x1; ssrc_value := Some (trim_end w) |}. split; [|split; [exists x1; split; [reflexivity|exact T1]|]].
    + match goal with |- parse_sdp_line ?u _ = _ => replace u with (lit "a=" ++ of_string (sdp_name (ASsrc {| ssrc_id := dec_value x; ssrc_attribute := Some x1; ssrc_value := Some (trim_end w) |})) ++ 58 :: (x ++ 32 :: x1) ++ 58 :: w) by flat end.
      apply attr_line; [|exact I]. rewrite trim_end_mid by reflexivity.
      eexists. split; [apply core_self|].
      * apply starts_app, starts_app, word_starts, W.
      * destruct (trim_end_cases w) as [T|T].
        -- rewrite T. apply ends_app. exists 58, []. split; reflexivity.
        -- apply ends_app, ends_cons. destruct T as [y [c [-> C]]]. exists c, y. auto.
      * right. exists x, (x1 ++ 58 :: trim_end w). split; [split; [rewrite <- app_assoc; reflexivity|exact S0]|]. split; [exact U|].
        right. exists x1, (trim_end w). split; [split; [reflexivity|exact S1]|]. auto.
    + cbn [ssrc_value]. intro N. rewrite K by (eexists; reflexivity). unfold show_ssrc. cbn [ssrc_id ssrc_attribute ssrc_value show_opt].
      parts [lit "a="; lit "ssrc"; lit ":"; show_N (dec_value x) ++ 32 :: x1 ++ 58 :: trim_end w]; [|flat].
      parts [show_N (dec_value x); lit " "; x1; 58 :: trim_end w]; [apply g_again, T0|exact T1| |flat].
      apply g_opt. apply (gen_cat _ _ (lit ":")); [constructor|]. apply g_inv_many1_chr in V. apply g_many1; [congruence|].
      apply trim_row, V.
Qed.
Lemma ssrc_again : forall t n, gen (cats [Lit "a="; Lit "ssrc"; Lit ":"; rfc_ssrc]) t -> exists s,
  parse_sdp_line t n = Ok {| l_number := n; l_type := TyAttribute (ASsrc s); l_text := t |} /\
  (ssrc_value s <> Some [] -> gen (cats [Lit "a="; Lit "ssrc"; Lit ":"; rfc_ssrc]) (printed_line (TyAttribute (ASsrc s)))).
Proof. intros t n G. destruct (ssrc_parts t n G) as (s & P & _ & K). eauto. Qed.
End WithExt.

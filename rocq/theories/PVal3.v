(** * Attribute parsers against the grammars of SpecVal.v (proofs only) *)
From Coq Require Import List NArith ZArith Bool Ascii String Lia.
From Coq Require Import ZifyBool ZifyNat ZifyN.
From Verif Require Import Str Num Net Types Ext Show Address AttrParse Media Session.
From Verif Require Import StrLemmas NumLemmas NetLemmas.
From Verif Require Import SpecApi SpecDoc SpecVal PVal PVal2.
Import ListNotations.
Open Scope N_scope.
Open Scope list_scope.

Section WithExt.
Context {E : Ext}.

Ltac tok H := cbn [List.length Nat.eqb Nat.ltb Nat.leb negb idx nth_error bind skipn] in H.
Ltac tokg := cbn [List.length Nat.eqb Nat.ltb Nat.leb negb idx nth_error bind skipn].

Lemma sctp_port_iff : forall v a, parse_sctp_port (trim v) = Ok a <->
  exists n, a = ASctpPort n /\ number_value 65535 v n.
Proof.
  intros v a. unfold parse_sctp_port, number_value. split.
  - intro H. okb H n Hn. apply p_u64_iff in Hn. destruct (65535 <? n) eqn:L; inv H.
    exists n. split; [reflexivity|]. exists (trim v). split; [apply core_trim_self|].
    eapply numeral_weaken; eauto; lia.
  - intros (n & -> & t & C & H). apply core_trim in C. subst t.
    pose proof (numeral_le _ _ _ H). apply (numeral_weaken u64_max) in H; [|unfold u64_max; lia].
    apply p_u64_iff in H. rewrite H. cbn [bind].
    destruct (N.ltb_spec 65535 n); [lia | reflexivity].
Qed.

Lemma ice_pacing_iff : forall v a, parse_ice_pacing (trim v) = Ok a <->
  exists n, a = AIcePacing n /\ number_value 9999999999 v n.
Proof.
  intros v a. unfold parse_ice_pacing, number_value. split.
  - intro H. okb H n Hn. apply p_u64_iff in Hn. destruct (10000000000 <=? n) eqn:L; inv H.
    exists n. split; [reflexivity|]. exists (trim v). split; [apply core_trim_self|].
    eapply numeral_weaken; eauto; lia.
  - intros (n & -> & t & C & H). apply core_trim in C. subst t.
    pose proof (numeral_le _ _ _ H). apply (numeral_weaken u64_max) in H; [|unfold u64_max; lia].
    apply p_u64_iff in H. rewrite H. cbn [bind].
    destruct (N.leb_spec 10000000000 n); [lia | reflexivity].
Qed.

Lemma u64_value_iff : forall (f : N -> attr) v a, (x <- p_u64 (trim v) ;; Ok (f x)) = Ok a <->
  exists n, a = f n /\ number_value u64_max v n.
Proof.
  intros f v a. unfold number_value. split.
  - intro H. okb H n Hn. apply p_u64_iff in Hn. inv H.
    exists n. split; [reflexivity|]. exists (trim v). split; [apply core_trim_self | exact Hn].
  - intros (n & -> & t & C & H). apply core_trim in C. subst t.
    apply p_u64_iff in H. rewrite H. reflexivity.
Qed.

Lemma text_value_iff : forall (f : str -> attr) v a,
  (x <- string_or_empty (trim v) ;; Ok (f x)) = Ok a <->
  exists t, a = f t /\ text_value v t.
Proof.
  intros f v a. unfold text_value, string_or_empty. split.
  - intro H. okb H t Ht. inv H. destruct (is_empty (trim v)) eqn:Em; inv Ht.
    apply is_empty_false in Em. exists (trim v). split; [reflexivity|].
    split; [apply core_trim_self | exact Em].
  - intros (t & -> & C & Hne). apply core_trim in C. subst t.
    rewrite (proj2 (is_empty_false _) Hne). reflexivity.
Qed.

Lemma ice_options_iff : forall v a, parse_ice_options (trim v) = Ok a <->
  exists l, a = AIceOptions l /\ words v l /\ l <> [].
Proof.
  intros v a. unfold parse_ice_options. rewrite sws_trim. split.
  - destruct (is_empty (trim v)) eqn:Em; intro H; inv H.
    eexists. split; [reflexivity|]. split; [apply words_sws; reflexivity|].
    intro X. apply is_empty_false in Em. apply Em. apply trim_empty_iff.
    apply words_sws in X. inversion X as [w B| |]; subst. apply blank_forallb in B. exact B.
  - intros (l & -> & W & Hne). apply words_sws in W.
    destruct (is_empty (trim v)) eqn:Em; [|rewrite W; reflexivity].
    exfalso. apply Hne. apply is_empty_true in Em. rewrite <- W, <- sws_trim, Em. reflexivity.
Qed.

Lemma setup_iff : forall v a, parse_setup (trim v) = Ok a <->
  exists x, a = ASetup x /\ exists t, core v t /\ means t (setup_name x).
Proof.
  intros v a. unfold parse_setup.
  match goal with |- context [assoc_str _ ?t] => pose proof (table_iff t setup_name) as T end.
  destruct (assoc_str _ _) as [x|] eqn:A; split; intro H; try discriminate.
  - inv H. exists x. split; [reflexivity|]. exists (trim v). split; [apply core_trim_self|].
    apply means_iff; [destruct x; reflexivity|]. apply T in A; [exact A| |].
    + repeat constructor.
    + intros []; reflexivity.
  - destruct H as (y & -> & t & C & H). apply core_trim in C. subst t.
    apply means_iff in H; [|destruct y; reflexivity]. apply T in H.
    + congruence.
    + repeat constructor.
    + intros []; reflexivity.
  - destruct H as (y & -> & t & C & H). apply core_trim in C. subst t.
    apply means_iff in H; [|destruct y; reflexivity]. apply T in H.
    + congruence.
    + repeat constructor.
    + intros []; reflexivity.
Qed.

Lemma group_iff : forall v a, parse_group (trim v) = Ok a <->
  exists g, a = AGroup g /\ group_value v g.
Proof.
  intros v a. unfold parse_group, group_value. rewrite sws_trim.
  match goal with |- context [assoc_str _ ?t] =>
    assert (T : forall x g, assoc_str (to_upper x) t = Some g <-> means_upper x (group_name g)) end.
  { intros x g. rewrite means_upper_iff by (destruct g; reflexivity). apply table_iff.
    - repeat constructor.
    - intros []; reflexivity. }
  split.
  - destruct (split_whitespace v) as [|t0 rest] eqn:W; intro H; [discriminate|].
    destruct (assoc_str _ _) as [g|] eqn:A; inv H. apply T in A.
    eexists. split; [reflexivity|]. exists t0. rewrite words_sws. auto.
  - intros (g & -> & w & W & H). apply words_sws in W. rewrite W.
    apply T in H. rewrite H. destruct g; reflexivity.
Qed.

Lemma msid_iff : forall v a, parse_msid (trim v) = Ok a <-> exists m, a = AMsid m /\ msid_value v m.
Proof.
  intros v a. unfold parse_msid, msid_value. rewrite sws_trim. split.
  - destruct (split_whitespace v) as [|t0 rest] eqn:W; intro H; inv H.
    eexists. split; [reflexivity|]. exists rest. rewrite words_sws. auto.
  - intros (m & -> & more & W & H). apply words_sws in W. rewrite W.
    destruct m; cbn in *; subst; reflexivity.
Qed.

Lemma msid_semantic_iff : forall v a, parse_msid_semantic (trim v) = Ok a <->
  exists m, a = AMsidSemantic m /\ msid_semantic_value v m.
Proof.
  intros v a. unfold parse_msid_semantic, msid_semantic_value. rewrite sws_trim. split.
  - destruct (split_whitespace v) as [|t0 rest] eqn:W; intro H; inv H.
    eexists. split; [reflexivity|]. rewrite words_sws. exact W.
  - intros (m & -> & W). apply words_sws in W. rewrite W. destruct m; reflexivity.
Qed.

Lemma remote_candidate_iff : forall v a, parse_remote_candidates (trim v) = Ok a <->
  exists c, a = ARemoteCandidate c /\ remote_candidate_value v c.
Proof.
  intros v a. unfold parse_remote_candidates, remote_candidate_value. rewrite sws_trim. split.
  - destruct (split_whitespace v) as [|t0 [|t1 [|t2 more]]] eqn:W; intro H; try (oka H; discriminate).
    okb H comp Hc. okb H addr Ha. okb H port Hp. destruct (65535 <? port) eqn:L; inv H.
    eexists. split; [reflexivity|]. exists t0, t1, t2, more. rewrite words_sws.
    cbn [rc_component rc_address rc_port].
    split; [exact W|]. split; [apply p_u32_iff; exact Hc|].
    split; [apply address_iff; exact Ha | apply port_iff; auto].
  - intros (c & -> & comp & addr & port & more & W & H1 & H2 & H3). apply words_sws in W. rewrite W.
    apply p_u32_iff in H1. apply address_iff in H2. apply port_iff in H3. destruct H3 as [H3 L].
    rewrite H1. cbn [bind]. unfold parse_unicast_address. rewrite H2. cbn [bind]. rewrite H3.
    cbn [bind]. rewrite L. destruct c; reflexivity.
Qed.

Lemma dtls_iff : forall v a, parse_dtls_message (trim v) = Ok a <->
  exists m, a = ADtlsMessage m /\ dtls_value v m.
Proof.
  intros v a. unfold parse_dtls_message, dtls_value, is_word. split.
  - destruct (split c_space (trim v)) as [|t0 [|t1 [|t2 more]]] eqn:S; intro H; try discriminate H.
    tok H. 
    destruct (str_eqb_spec t0 (lit "client")) as [->|N1];
      [|destruct (str_eqb_spec t0 (lit "server")) as [->|N2]]; inv H;
      (eexists; split; [reflexivity|]; exists (trim v); eexists; eexists;
       rewrite fields_split; split; [apply core_trim_self|]; split; [exact S|]); auto.
  - intros (m & -> & t & role & text & C & F & H). apply core_trim in C. subst t.
    apply fields_split in F. change (split c_space (trim v) = [role; text]) in F. rewrite F. tokg.
    destruct H as [[-> ->] | [-> ->]]; reflexivity.
Qed.

Lemma framerate_iff : forall v a, parse_framerate (trim v) = Ok a <->
  exists x, a = AFrameRate x /\ framerate_value v x.
Proof.
  intros v a. unfold parse_framerate, framerate_value. split.
  - intro H. okb H x Hx. apply p_f64_iff in Hx.
    destruct (f64_is_nan x) eqn:H1; [discriminate|].
    destruct (f64_is_infinite x) eqn:H2; [discriminate|].
    destruct (f64_is_zero x) eqn:H3; inv H.
    exists x. split; [reflexivity|]. exists (trim v). split; [apply core_trim_self|]. auto.
  - intros (x & -> & t & C & H & H1 & H2 & H3). apply core_trim in C. subst t.
    apply p_f64_iff in H. rewrite H. cbn [bind]. rewrite H1, H2, H3. reflexivity.
Qed.

Lemma rtpmap_iff : forall v a, parse_rtpmap (trim v) = Ok a <->
  exists r, a = ARtpmap r /\ rtpmap_value v r.
Proof.
  intros v a. unfold parse_rtpmap, rtpmap_value. rewrite sws_trim. split.
  - destruct (split_whitespace v) as [|t0 rest] eqn:W; intro H; [discriminate|].
    okb H pt Hpt. destruct (127 <? pt) eqn:L; [discriminate|]. destruct rest as [|t1 more]; [discriminate|].
    destruct (split c_slash t1) as [|name [|f rest]] eqn:S; try discriminate.
    okb H freq Hf. okb H ch Hch. inv H. eexists. split; [reflexivity|].
    exists t0, t1, more, f, rest. rewrite words_sws, fields_split.
    cbn [rm_payload_type rm_codec_name rm_frequency rm_channels].
    split; [exact W|]. apply p_u8_iff in Hpt. apply p_u32_iff in Hf.
    split; [eapply numeral_weaken; eauto; lia|]. split; [exact S|]. split; [exact Hf|].
    destruct rest as [|c rest]; [inv Hch; reflexivity|].
    okb Hch n Hn. inv Hch. exists n. split; [reflexivity | apply p_u32_iff; exact Hn].
  - intros (r & -> & pt & codec & more & freq & rest & W & H1 & F & H2 & H3).
    apply words_sws in W. rewrite W.
    pose proof (numeral_le _ _ _ H1). apply (numeral_weaken u8_max) in H1; [|unfold u8_max; lia].
    apply p_u8_iff in H1. rewrite H1. cbn [bind].
    destruct (N.ltb_spec 127 (rm_payload_type r)); [lia|].
    apply fields_split in F. change (split c_slash codec = rm_codec_name r :: freq :: rest) in F.
    rewrite F. apply p_u32_iff in H2. rewrite H2. cbn [bind].
    destruct rest as [|c rest].
    + cbn [bind]. destruct r; cbn in *; subst; reflexivity.
    + destruct H3 as (n & E1 & H3). apply p_u32_iff in H3. rewrite H3. cbn [bind].
      destruct r; cbn in *; subst; reflexivity.
Qed.

Lemma rtcp_iff : forall v a, parse_rtcp (trim v) = Ok a <-> exists r, a = ARtcp r /\ rtcp_value v r.
Proof.
  intros v a. unfold parse_rtcp, rtcp_value. rewrite sws_trim. split.
  - destruct (split_whitespace v) as [|t0 [|t1 [|t2 [|t3 more]]]] eqn:W; intro H;
      try (oka H; discriminate).
    + okb H port Hp. inv H. apply p_u16_iff in Hp. eexists. split; [reflexivity|].
      exists t0, []. rewrite words_sws. auto.
    + okb H port Hp. okb H u Hu. okb H t Ht. okb H ad Ha. inv H.
      apply p_u16_iff in Hp. apply network_iff in Hu. apply addr_type_iff in Ht. apply typed_iff in Ha.
      eexists. split; [reflexivity|]. exists t0, (t1 :: t2 :: t3 :: more). rewrite words_sws.
      split; [exact W|]. split; [exact Hp|]. split; [exact Hu|]. exists t, ad. auto.
  - intros (r & -> & port & more & W & H1 & H2). apply words_sws in W. rewrite W.
    apply p_u16_iff in H1. rewrite H1. cbn [bind].
    destruct more as [|net [|ty [|addr more]]]; try contradiction.
    + destruct r; cbn in *; subst; reflexivity.
    + destruct H2 as (Hn & t & ad & Ht & Ha & Er).
      rewrite (proj2 (network_iff net tt) Hn). cbn [bind].
      apply addr_type_iff in Ht. rewrite Ht. cbn [bind]. apply typed_iff in Ha. rewrite Ha. cbn [bind].
      destruct r; cbn in *; subst; reflexivity.
Qed.

Lemma sctpmap_iff : forall v a, parse_sctpmap (trim v) = Ok a <->
  exists s, a = ASctpmap s /\ sctpmap_value v s.
Proof.
  intros v a. unfold parse_sctpmap, sctpmap_value. rewrite sws_trim. split.
  - destruct (split_whitespace v) as [|t0 [|t1 [|t2 [|t3 more]]]] eqn:W; intro H; try discriminate H.
    tok H. okb H port Hp. apply p_u16_iff in Hp.
    destruct (str_eqb_spec (to_lower t1) (lit "webrtc-datachannel")) as [Em|]; [|discriminate].
    cbn [negb] in H. okb H ch Hch. apply p_u32_iff in Hch. inv H.
    eexists. split; [reflexivity|]. exists t0, t1, t2. rewrite words_sws, means_iff by reflexivity.
    auto.
  - intros (s & -> & port & app & ch & W & H1 & H2 & H3). apply words_sws in W. rewrite W. tokg.
    apply p_u16_iff in H1. apply p_u32_iff in H3. rewrite means_iff in H2 by reflexivity.
    rewrite H1. cbn [bind]. rewrite H2. cbn [str_eqb]. rewrite H3. destruct s; reflexivity.
Qed.

Lemma ssrc__iff : forall t s, parse_ssrc_ t = Ok s <-> ssrc_value_ t s.
Proof.
  intros t s. unfold parse_ssrc_, ssrc_value_. 
  destruct (splitn2_cases c_space t) as [[N S] | (x & y & -> & N & S)]; rewrite S.
  - apply contains_not_In in N. change c_space with 32 in *. split.
    + intro H. okb H n Hn. apply p_u32_iff in Hn. inv H. left. auto.
    + intros [(_ & H & H1 & H2) | (x & y & C & _)];
        [|apply cut_In in C; contradiction].
      apply p_u32_iff in H. rewrite H. cbn [bind]. destruct s; cbn in *; subst; reflexivity.
  - assert (C : cut 32 (x ++ c_space :: y) x y) by (split; [reflexivity | apply contains_not_In, N]).
    unfold ssrc_set_attribute. split.
    + intro H. okb H n Hn. apply p_u32_iff in Hn. right. exists x, y. split; [exact C|].
      destruct (splitn2_cases c_colon y) as [[N2 S2] | (p & q & -> & N2 & S2)].
      * rewrite N2 in H. inv H. apply contains_not_In in N2. split; [exact Hn|]. left. auto.
      * rewrite contains_app, N2, contains_cons, N.eqb_refl in H. cbn [orb negb] in H.
        rewrite S2 in H. inv H. split; [exact Hn|]. right. exists p, q.
        split; [split; [reflexivity | apply contains_not_In, N2]|]. auto.
    + intros [(H & _) | (x' & y' & C' & H & H2)]; [apply cut_In in C; contradiction|].
      destruct (cut_fun _ _ _ _ _ _ C C') as [<- <-]. apply p_u32_iff in H. rewrite H. cbn [bind].
      destruct H2 as [(N2 & H3 & H4) | (p & q & [-> N2] & H3 & H4)];
        apply contains_not_In in N2.
      * change (contains c_colon y = false) in N2. rewrite N2. destruct s; cbn in *; subst; reflexivity.
      * change (contains c_colon p = false) in N2. change 58 with c_colon.
        rewrite contains_app, N2, contains_cons, N.eqb_refl. cbn [orb negb].
        rewrite splitn2_app by exact N2. destruct s; cbn in *; subst; reflexivity.
Qed.

Lemma ssrc_iff : forall v a, parse_ssrc (trim v) = Ok a <->
  exists s, a = ASsrc s /\ ssrc_line_value v s.
Proof.
  intros v a. unfold parse_ssrc, ssrc_line_value. split.
  - intro H. okb H s Hs. inv H. apply ssrc__iff in Hs. exists s. split; [reflexivity|].
    exists (trim v). split; [apply core_trim_self | exact Hs].
  - intros (s & -> & t & C & H). apply core_trim in C. subst t. apply ssrc__iff in H.
    rewrite H. reflexivity.
Qed.

Lemma ssrc_group_iff : forall v a, parse_ssrc_group (trim v) = Ok a <->
  exists sem l, a = ASsrcGroup sem l /\ ssrc_group_value v sem l.
Proof.
  intros v a. unfold parse_ssrc_group, ssrc_group_value. rewrite sws_trim.
  match goal with |- context [assoc_str _ ?t] =>
    assert (T : forall x g, assoc_str (to_upper x) t = Some g <-> means_upper x (ssrc_group_name g)) end.
  { intros x g. rewrite means_upper_iff by (destruct g; reflexivity). apply table_iff.
    - repeat constructor.
    - intros []; reflexivity. }
  assert (G : forall t s, word t ->
    ((a <- parse_ssrc t ;; match a with ASsrc r => Ok r | _ => Panic end) = Ok s <->
     numeral u32_max t (ssrc_id s) /\ ssrc_attribute s = None /\ ssrc_value s = None)).
  { intros t s [_ Ht]. unfold parse_ssrc.
    assert (N : ~ In 32 t).
    { intro X. rewrite Forall_forall in Ht. specialize (Ht _ X). discriminate. }
    split.
    - intro H. okb H x Hx. okb Hx y Hy. inv Hx. inv H. apply ssrc__iff in Hy.
      destruct Hy as [(_ & H) | (p & q & C & _)]; [exact H | apply cut_In in C; contradiction].
    - intro H. rewrite (proj2 (ssrc__iff t s)); [reflexivity | left; auto]. }
  split.
  - destruct (split_whitespace v) as [|t0 rest] eqn:W; intro H; [discriminate|].
    destruct (assoc_str _ _) as [g|] eqn:A; [|discriminate]. apply T in A.
    okb H l Hl. apply mapM_ok in Hl. destruct l as [|s l]; inv H.
    exists g, (s :: l). split; [reflexivity|]. exists t0, rest. rewrite words_sws.
    split; [exact W|]. split; [exact A|]. split; [intros ->; inversion Hl|].
    assert (Wd : Forall word rest).
    { apply Forall_forall. intros x Hx. eapply words_word; [apply words_sws; exact W | now right]. }
    revert Hl Wd. generalize (s :: l). clear -G. intros l Hl Wd.
    induction Hl as [|x y k k' H F IH]; constructor; inv Wd; auto. apply G; assumption.
  - intros (sem & l & -> & w & ids & W & Hm & Hne & F).
    assert (Wd : Forall word ids).
    { apply Forall_forall. intros x Hx. eapply words_word; [exact W | now right]. }
    apply words_sws in W. rewrite W. apply T in Hm. rewrite Hm.
    replace (mapM _ ids) with (Ok (E:=ierr) l).
    + cbn [bind]. destruct l; [inv F; congruence | reflexivity].
    + symmetry. apply mapM_ok. clear -F Wd G.
      induction F as [|x y k k' H F IH]; constructor; inv Wd; auto. apply G; assumption.
Qed.

Lemma hash_iff : forall s h, hash_type_from_name s = Ok h <-> is_word s (hash_name h).
Proof.
  intros s h. unfold hash_type_from_name, is_word.
  match goal with |- context [assoc_str _ ?t] => rewrite <- (table_iff t hash_name) end.
  - destruct (assoc_str _ _); split; intro H; inv H; reflexivity.
  - repeat constructor.
  - intros []; reflexivity.
Qed.

Lemma fingerprint_iff : forall v a, parse_fingerprint (trim v) = Ok a <->
  exists f, a = AFingerprint f /\ fingerprint_value v f.
Proof.
  intros v a. unfold parse_fingerprint, fingerprint_value, parse_octets, fingerprint_try_from.
  rewrite sws_trim.
  assert (O : forall h, octet_count h = hash_octets h) by (intros []; reflexivity).
  assert (G : forall t n,
    (if negb (byte_len t =? 2)
     then Err (gen "fingerpint's byte tokens must have 2 hexdigits")
     else res_map_err EInteger (parse_uint 16 u8_max t)) = Ok n <->
    byte_len t = 2 /\ hex_numeral 255 t n).
  { intros t n. destruct (N.eqb_spec (byte_len t) 2); cbn [negb].
    - rewrite map_err_ok, hex_numeral_iff. unfold u8_max. tauto.
    - split; [discriminate | tauto]. }
  split.
  - destruct (split_whitespace v) as [|t0 [|t1 [|t2 more]]] eqn:W; intro H; try discriminate H.
    tok H. okb H h Hh. apply hash_iff in Hh. okb H b Hb. okb Hb bs Hbs. apply mapM_ok in Hbs.
    destruct (Nat.eqb_spec (List.length bs) (octet_count h)) as [L|]; [|discriminate].
    inv Hb. rewrite L, Nat.eqb_refl in H. inv H.
    eexists. split; [reflexivity|]. exists t0, t1, (split c_colon t1). rewrite words_sws, fields_split.
    cbn [fp_hash fp_bytes]. split; [exact W|]. split; [exact Hh|]. split; [reflexivity|].
    assert (F : Forall2 (fun t n => byte_len t = 2 /\ hex_numeral 255 t n) (split c_colon t1) b).
    { clear -Hbs G. induction Hbs; constructor; auto. apply G; assumption. }
    split; [exact F|]. rewrite <- O, <- L. clear -F. induction F; cbn; congruence.
  - intros (f & -> & h & t & bytes & W & Hh & F & B & L). apply words_sws in W. rewrite W. tokg.
    apply hash_iff in Hh. rewrite Hh. cbn [bind]. apply fields_split in F.
    change (split c_colon t = bytes) in F. rewrite F.
    replace (mapM _ bytes) with (Ok (E:=ierr) (fp_bytes f)).
    + cbn [bind]. assert (L2 : List.length (fp_bytes f) = octet_count (fp_hash f)).
      { rewrite O, <- L. clear -B. induction B; cbn; congruence. }
      rewrite L2, Nat.eqb_refl. cbn [negb bind]. rewrite L2, Nat.eqb_refl. destruct f; reflexivity.
    + symmetry. apply mapM_ok. clear -B G. induction B; constructor; auto. apply G; assumption.
Qed.

Lemma direction_iff : forall s d,
  assoc_str (to_lower s) [ (lit "recvonly", DRecvonly); (lit "sendonly", DSendonly);
                           (lit "sendrecv", DSendrecv) ] = Some d <-> means s (direction_name d).
Proof.
  intros s d. rewrite means_iff by (destruct d; reflexivity). apply table_iff.
  - repeat constructor.
  - intros []; reflexivity.
Qed.

Lemma join_contains : forall c l, c <> 32 ->
  (contains c (join sp l) = false <-> Forall (fun w => ~ In c w) l).
Proof.
  intros c l Hc. induction l as [|x l IH]; [split; [constructor | reflexivity]|].
  destruct l as [|y l].
  - cbn [join]. rewrite contains_not_In. split; [intro H; constructor; auto | intro H; inv H; auto].
  - change (join sp (x :: y :: l)) with (x ++ sp ++ join sp (y :: l)).
    rewrite !contains_app, !orb_false_iff, IH, contains_not_In. split.
    + intros (H1 & _ & H2). constructor; auto.
    + intro H. inv H. split; [auto|]. split; [|auto].
      apply contains_not_In. intros [X|[]]. unfold c_space in X. congruence.
Qed.

Lemma extmap_iff : forall v a, parse_extmap (trim v) = Ok a <->
  exists e, a = AExtmap e /\ extmap_value v e.
Proof.
  intros v a. unfold parse_extmap, extmap_value. rewrite sws_trim.
  assert (V : forall more, Forall word more ->
    (valid_byte_string (join sp more) = true <-> Forall (fun w => ~ In 0 w) more)).
  { intros more Hw. unfold valid_byte_string.
    assert (Z : forall c, is_ws c = true -> c <> 32 -> contains c (join sp more) = false).
    { intros c Hc Hn. apply join_contains; [exact Hn|]. eapply Forall_impl; [|exact Hw].
      intros w [_ F] X. rewrite Forall_forall in F. rewrite (F _ X) in Hc. discriminate. }
    rewrite (Z c_lf), (Z c_cr) by (reflexivity || discriminate). rewrite !orb_false_r.
    rewrite negb_true_iff. apply join_contains. discriminate. }
  split.
  - destruct (split_whitespace v) as [|t0 [|t1 more]] eqn:W; intro H; try discriminate H.
    assert (Hw : Forall word more).
    { apply Forall_forall. intros x Hx. eapply words_word; [apply words_sws; exact W|]. right; now right. }
    tok H. okb H r Hr. destruct r as [i d]. okb H ext He. inv H.
    eexists. split; [reflexivity|]. exists t0, t1, more. rewrite words_sws.
    cbn [ext_id ext_direction ext_url ext_attributes].
    split; [exact W|]. split; [reflexivity|]. split.
    + destruct (splitn2_cases c_slash t0) as [[N S] | (x & y & -> & N & S)].
      * rewrite N in Hr. cbn [negb] in Hr. okb Hr n Hn. apply p_u16_iff in Hn. inv Hr.
        split; [apply contains_not_In; exact N | exact Hn].
      * rewrite contains_app, N, contains_cons, N.eqb_refl in Hr. cbn [orb negb] in Hr.
        rewrite S in Hr. tok Hr. okb Hr n Hn. apply p_u16_iff in Hn.
        destruct (assoc_str _ _) as [d'|] eqn:A; inv Hr. apply direction_iff in A.
        exists x, y. split; [split; [reflexivity | apply contains_not_In; exact N]|]. auto.
    + destruct more as [|m more]; [inv He; reflexivity|]. tok He.
      destruct (valid_byte_string (join sp (m :: more))) eqn:B; [|discriminate]. inv He.
      split; [reflexivity | apply V; assumption].
  - intros (e & -> & i & url & more & W & <- & Hd & Hm).
    assert (Hw : Forall word more).
    { apply Forall_forall. intros x Hx. eapply words_word; [exact W|]. right; now right. }
    apply words_sws in W. rewrite W. tokg.
    match goal with |- bind ?X _ = _ =>
      assert (Q : X = Ok (ext_id e, ext_direction e)) end.
    { destruct (ext_direction e) as [d|].
      - destruct Hd as (x & y & [-> N] & Hn & Hd). apply contains_not_In in N.
        change (contains c_slash x = false) in N. change 47 with c_slash.
        rewrite contains_app, N, contains_cons, N.eqb_refl. cbn [orb negb].
        rewrite splitn2_app by exact N. tokg. apply p_u16_iff in Hn. rewrite Hn. cbn [bind].
        apply direction_iff in Hd. rewrite Hd. reflexivity.
      - destruct Hd as [N Hn]. apply contains_not_In in N. change (contains c_slash i = false) in N.
        rewrite N. cbn [negb]. apply p_u16_iff in Hn. rewrite Hn. reflexivity. }
    rewrite Q. cbn [bind]. destruct more as [|m more].
    + tokg. destruct e; cbn in *; subst; reflexivity.
    + destruct Hm as [Em Hz]. tokg. apply (V _ Hw) in Hz. rewrite Hz. cbn [negb bind].
      destruct e; cbn in *; subst; reflexivity.
Qed.

Lemma fb_type_iff : forall s t,
  assoc_str s [ (lit "ack", FbAck); (lit "ccm", FbCcm); (lit "nack", FbNack);
                (lit "trr-int", FbTrrInt); (lit "goog-remb", FbRemb);
                (lit "transport-cc", FbTransCc) ] = Some t <-> is_word s (fb_name t).
Proof.
  intros s t. unfold is_word. apply table_iff.
  - repeat constructor.
  - intros []; reflexivity.
Qed.

Lemma fb_parameter_iff : forall t o p, rtcp_fb_parameter t o = Ok p <->
  fb_parameter_ok t o /\ p = match o with Some x => x | None => [] end.
Proof.
  intros t o p. unfold rtcp_fb_parameter, fb_parameter_ok.
  destruct t, o as [x|]; 
    try (split; intro H; [discriminate | destruct H; contradiction]);
    try (split; intro H; [inv H; auto | destruct H as [_ ->]; reflexivity]);
    try (match goal with |- context [mem_str x ?l] =>
           pose proof (mem_str_In x l) as M; destruct (mem_str x l) end;
         split; intro H; [inv H; split; [apply M; reflexivity | reflexivity]
                         | destruct H as [_ ->]; reflexivity
                         | discriminate
                         | destruct H as [H _]; apply M in H; discriminate]).
  destruct (parse_u32 x) as [n| |] eqn:P; cbn [is_ok]; split; intro H; try discriminate;
    try (match type of H with _ /\ _ => destruct H as [(n' & H) _] end;
         apply numeral_iff in H; unfold parse_u32 in P; congruence).
  - inv H. split; [exists n; apply numeral_iff; exact P | reflexivity].
  - destruct H as [_ ->]. reflexivity.
Qed.

Lemma rtcp_fb_iff : forall v a, parse_rtcp_fb (trim v) = Ok a <->
  exists f, a = ARtcpfb f /\ rtcp_fb_value v f.
Proof.
  intros v a. unfold parse_rtcp_fb, rtcp_fb_value. split.
  - intro H. pose proof (splitn_nonempty 3 c_space (trim v)) as Hne.
    destruct (splitn 4 c_space (trim v)) as [|t0 [|t1 more]] eqn:S; [congruence|discriminate|].
    cbn [nth_error] in H. okb H t Ht. destruct (assoc_str _ _) as [t'|] eqn:A; inv Ht.
    apply fb_type_iff in A. okb H p Hp. apply fb_parameter_iff in Hp. destruct Hp as [Hp1 Hp2].
    tok H. okb H pt Hpt. apply payload_iff in Hpt. inv H. eexists. split; [reflexivity|].
    exists (trim v), t0, t1, more. rewrite parts_splitn.
    cbn [fb_payload_type fb_feedback_type fb_parameter fb_extra].
    split; [apply core_trim_self|]. split; [split; [discriminate | exact S]|].
    split; [exact Hpt|]. split; [exact A|].
    destruct more as [|p [|e rest]]; (split; [exact Hp1|]); auto.
  - intros (f & -> & t & pt & ty & more & C & P & H1 & H2 & H3 & H4 & H5).
    apply core_trim in C. subst t. apply parts_splitn in P. destruct P as [_ S].
    change (splitn 4 c_space (trim v) = pt :: ty :: more) in S. rewrite S. cbn [nth_error].
    apply fb_type_iff in H2. rewrite H2. cbn [bind].
    replace (nth_error more 0) with (hd_error more) by (destruct more; reflexivity).
    rewrite (proj2 (fb_parameter_iff _ (hd_error more) (fb_parameter f))).
    + tokg. apply payload_iff in H1. rewrite H1. cbn [bind].
      destruct f; cbn in *; subst. destruct more as [|p [|e rest]]; reflexivity.
    + split; [exact H3|]. rewrite H4. destruct more; reflexivity.
Qed.

Lemma simulcast_id_iff : forall t i, simulcast_id_new t = i <-> simulcast_id_value t i.
Proof.
  intros t i. unfold simulcast_id_new, simulcast_id_value. destruct t as [|c t].
  - split.
    + intros <-. cbn. split; [reflexivity | discriminate].
    + destruct i as [d []]; cbn; [discriminate | intros [<- _]; reflexivity].
  - destruct (N.eqb_spec c c_tilde) as [->|N].
    + split.
      * intros <-. reflexivity.
      * destruct i as [d []]; cbn; [intro H; inv H; reflexivity | intros [_ H]; elim (H t); reflexivity].
    + split.
      * intros <-. cbn. split; [reflexivity|]. intros x H. inv H. apply N. reflexivity.
      * destruct i as [d []]; cbn; [intro H; inv H; elim N; reflexivity | intros [-> _]; reflexivity].
Qed.

Lemma Forall2_map_iff : forall {A B} (f : A -> B) (R : A -> B -> Prop) l l',
  (forall x y, f x = y <-> R x y) -> (map f l = l' <-> Forall2 R l l').
Proof.
  intros A B f R l l' H. split.
  - intros <-. induction l; constructor; auto. apply H. reflexivity.
  - intro F. induction F as [|x y l l' Hx F IH]; [reflexivity|]. cbn. apply H in Hx. congruence.
Qed.

Lemma version_list_iff : forall s l, make_version_list s = l <->
  exists vs, fields 59 s vs /\ Forall2 simulcast_version_value vs l.
Proof.
  intros s l. unfold make_version_list.
  assert (V : forall t x, simulcast_version_new t = x <-> simulcast_version_value t x).
  { intros t x. unfold simulcast_version_new, simulcast_version_value.
    rewrite (Forall2_map_iff _ _ _ _ simulcast_id_iff). split.
    - intro H. exists (split c_comma t). split; [apply fields_split; reflexivity | exact H].
    - intros (alts & F & H). apply fields_split in F. change 44 with c_comma in F. rewrite F. exact H. }
  rewrite (Forall2_map_iff _ _ _ _ V). split.
  - intro H. exists (split c_semi s). split; [apply fields_split; reflexivity | exact H].
  - intros (vs & F & H). apply fields_split in F. change 59 with c_semi in F. rewrite F. exact H.
Qed.

Lemma simulcast_list_iff : forall s l, parse_simulcast_version_list s = Ok l <->
  simulcast_list_value s l.
Proof.
  intros s l. unfold parse_simulcast_version_list, simulcast_list_value.
  destruct (splitn2_cases c_eq s) as [[N S] | (x & y & -> & N & S)].
  - rewrite N. apply contains_not_In in N. change c_eq with 61 in N. split.
    + intro H. inv H. destruct (proj1 (version_list_iff s _) eq_refl) as (vs & F & H).
      exists s, vs. auto.
    + intros (body & vs & [C | [_ ->]] & F & H); [apply cut_In in C; contradiction|].
      f_equal. apply version_list_iff. exists vs. auto.
  - rewrite contains_app, N, contains_cons, N.eqb_refl. cbn [orb]. rewrite S. tokg.
    apply contains_not_In in N. change c_eq with 61 in *.
    assert (C : cut 61 (x ++ 61 :: y) x y) by (split; [reflexivity | exact N]).
    split.
    + destruct (str_eqb_spec x (lit "rid")) as [->|]; intro H; inv H.
      destruct (proj1 (version_list_iff y _) eq_refl) as (vs & F & H). exists y, vs. auto.
    + intros (body & vs & [C' | [X _]] & F & H); [|apply cut_In in C; contradiction].
      destruct (cut_fun _ _ _ _ _ _ C C') as [-> ->]. rewrite str_eqb_refl.
      f_equal. apply version_list_iff. exists vs. auto.
Qed.

Lemma single_direction_eqb_iff : forall a b, single_direction_eqb a b = true <-> a = b.
Proof. intros [] []; cbn; split; intro; congruence. Qed.

Lemma simulcast_iff : forall v a, parse_simulcast (trim v) = Ok a <->
  exists s, a = ASimulcast s /\ simulcast_value v s.
Proof.
  intros v a. unfold parse_simulcast, simulcast_value. rewrite sws_trim. split.
  - destruct (split_whitespace v) as [|t0 [|t1 more]] eqn:W; intro H; try (oka H; discriminate).
    okb H d Hd. apply single_direction_iff in Hd. okb H l1 H1. apply simulcast_list_iff in H1.
    okb H l2 H2. inv H. eexists. split; [reflexivity|]. exists t0, t1, more. rewrite words_sws.
    split; [exact W|]. exists d, l1, l2. split; [exact Hd|]. split; [exact H1|]. split.
    + destruct more as [|t2 more]; [inv H2; reflexivity|]. okb H2 d2 Hd2.
      destruct (single_direction_eqb d2 d) eqn:Q; [discriminate|].
      destruct more as [|t3 more]; [discriminate|].
      apply single_direction_iff in Hd2. apply simulcast_list_iff in H2. split; [|exact H2].
      destruct d, d2; try discriminate; exact Hd2.
    + destruct d; auto.
  - intros (s & -> & t0 & t1 & more & W & d & l1 & l2 & Hd & H1 & H2 & H3).
    apply words_sws in W. rewrite W. apply single_direction_iff in Hd. rewrite Hd. cbn [bind].
    apply simulcast_list_iff in H1. rewrite H1. cbn [bind].
    match goal with |- bind ?X _ = _ => assert (Q : X = Ok l2) end.
    { destruct more as [|t2 [|t3 more]]; [congruence | contradiction|].
      destruct H2 as [Hd2 H2]. apply single_direction_iff in Hd2. apply simulcast_list_iff in H2.
      rewrite Hd2. cbn [bind]. destruct d; exact H2. }
    rewrite Q. cbn [bind]. destruct d, H3; destruct s; cbn in *; subst; reflexivity.
Qed.

End WithExt.

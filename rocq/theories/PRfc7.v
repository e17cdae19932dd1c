(** * The lines of the RFCs are accepted (C62): all lines *)
From Coq Require Import List Arith NArith ZArith Lia Bool Ascii String.
From Coq Require Import ZifyBool ZifyNat ZifyN.
From Verif Require Import Str Num Net Types Ext Show Address AttrParse Media Session SpecApi SpecDoc SpecVal SpecItems
  SpecPrint SpecIp SpecGrammar.
From Verif Require Import StrLemmas NumLemmas NetLemmas PVal PVal2 PVal5 PVal6 PVal8 PVal9 PVal10 PVal11 PPrint PPrint2 PPrint3 PPrint4
  PPrint9 PPrint11 PIp PIp2.
From Verif Require Import SpecRfc PRfc PRfc2 PRfc3 PRfc4 PRfc5 PRfc6.
Import ListNotations.
Open Scope N_scope.
Open Scope list_scope.

Section WithExt.
Context {E : Ext}.
Definition taken (name : string) (t : str) : Prop := forall n, exists ty,
  parse_sdp_line t n = Ok {| l_number := n; l_type := ty; l_text := t |} /\ item_name ty = name.
Definition plain (ty : sdp_type) : Prop := match ty with TyAttribute _ => False | _ => True end.
Lemma take : forall ty v, plain ty -> type_value v ty -> taken (item_name ty) ([line_letter ty; 61] ++ v).
Proof.
  intros ty v C T n. exists ty. split; [|reflexivity]. apply line_iff.
  - destruct ty; try exact I. destruct C.
  - split; [reflexivity|]. split; [reflexivity|]. cbn [l_type l_text]. exists [], (line_letter ty), [], v.
    split; [reflexivity|]. split; [constructor|]. split; [constructor|]. split; [reflexivity|exact T].
Qed.
Lemma take_flag : forall a, flag_attribute a -> taken (sdp_name a) (lit "a=" ++ of_string (sdp_name a)).
Proof.
  intros a F n. exists (TyAttribute a). split; [|reflexivity]. destruct (name_word a) as (N1 & N2 & N3). apply line_iff.
  - destruct a; try exact I. destruct F.
  - split; [reflexivity|]. split; [reflexivity|]. cbn [l_type l_text]. exists [], 97, [], (of_string (sdp_name a)).
    split; [reflexivity|]. split; [constructor|]. split; [constructor|]. split; [reflexivity|].
    exists (of_string (sdp_name a)). split; [apply word_core, N1|]. left. auto.
Qed.
Hypothesis OK : ext_ok E.
Lemma values_taken : forall nv, In nv rfc_values -> names_of nv.
Proof.
  apply Forall_forall. unfold rfc_values. fa.
  - exact (r_candidate OK).
  - exact (r_remote_candidates OK).
  - exact r_fingerprint.
  - exact r_extmap.
  - exact r_group.
  - exact r_msid.
  - exact r_msid_semantic.
  - exact r_rtpmap.
  - exact (r_rtcp OK).
  - exact r_rtcp_fb.
  - exact r_ssrc.
  - exact r_ssrc_group.
  - exact r_simulcast.
  - exact r_rid.
  - exact r_fmtp.
  - exact r_ice_ufrag.
  - exact r_ice_pwd.
  - exact r_ice_options.
  - exact r_ice_pacing.
  - exact r_mid.
  - exact r_label.
  - exact r_identity.
  - exact r_setup.
  - exact r_sctp_port.
  - exact r_sctpmap.
  - exact r_max_message_size.
  - exact r_ptime.
  - exact r_maxptime.
  - exact r_dtls_message.
Qed.
Lemma attributes_taken : forall k r t, In (k, r) rfc_attributes -> gen r t -> taken k t.
Proof.
  intros k r t M G. apply in_app_iff in M. destruct M as [M|M].
  - apply in_map_iff in M. destruct M as [n [Q M]]. injection Q as <- <-. apply g_inv_cat in G. destruct G as [x [y [-> [A B]]]].
    apply g_inv_lit in A. apply g_inv_lit in B. subst x y.
    assert (K : exists a, sdp_name a = n /\ flag_attribute a).
    { unfold flags in M. cbn [In] in M.
      destruct M as [<-|[<-|[<-|[<-|[<-|[<-|[<-|[<-|[<-|[<-|[<-|[<-|[]]]]]]]]]]]]];
        [exists ABundleOnly|exists AEndOfCandidates|exists AExtmapAllowMixed|exists AIceLite|exists AIceMismatch|exists AInactive
        |exists ARecvonly|exists ARtcpMux|exists ARtcpMuxOnly|exists ARtcpRsize|exists ASendonly|exists ASendrecv]; split; exact I || reflexivity. }
    destruct K as (a & <- & F). exact (take_flag a F).
  - apply in_map_iff in M. destruct M as [[name rule] [Q M]]. cbn [fst snd] in Q. injection Q as <- <-.
    change (gen (cats [Lit "a="; Lit name; Lit ":"; rule]) t) in G. pieces G.
    pose proof (values_taken _ M x2 G2) as (a & Q & N & V). cbn [fst] in Q. subst name. intro n. exists (TyAttribute a). split; [|reflexivity].
    replace (List.concat [of_string "a="; of_string (sdp_name a); of_string ":"; x2]) with (lit "a=" ++ of_string (sdp_name a) ++ 58 :: x2)
      by (cbn [List.concat app]; rewrite ?app_nil_r; reflexivity).
    apply attr_line; assumption.
Qed.

(** ** Other lines *)
Lemma t_version : taken "v" (lit "v=0").
Proof.
  apply (take (TyVersion 0) [48]); [exact I|]. exists [48]. split; [apply word_core, word_b; reflexivity|]. split; [|reflexivity].
  exists [48]. split; [left; reflexivity|]. split; [discriminate|]. split; [constructor; [unfold is_digit; lia|constructor]|].
  split; [reflexivity|]. unfold u64_max. lia.
Qed.
Lemma t_origin : forall t, gen (cats [Lit "o="; non_ws; Lit " "; at_most u64_max; Lit " "; at_most u64_max; Lit " "; typed]) t -> taken "o" t.
Proof.
  intros t H. pieces H. apply non_ws_word in G0. apply g_at_most in G2, G4. destruct G2 as (W2 & _ & U2), G4 as (W4 & _ & U4).
  apply (g_typed OK) in G6. destruct G6 as (net & ty & addr & k & a & -> & V1 & V2 & V3 & M1 & M2 & _ & R).
  replace (List.concat _) with ([111; 61] ++ x0 ++ leads 32 [x2; x4; net; ty; addr])
    by (cbn [List.concat leads flat_map app]; repeat (rewrite <- app_assoc; cbn [app]); rewrite ?app_nil_r; reflexivity).
  apply (take (TyOrigin {| o_username := x0; o_session_id := dec_value x2; o_session_version := dec_value x4; o_unicast_addr := a |}));
    [exact I|].
  exists x0, x2, x4, net, ty, addr, [], k. split; [apply words_leads; fa; assumption|]. auto 10.
Qed.
Lemma t_session : forall t, gen (Cat (Lit "s=") byte_string) t -> taken "s" t.
Proof.
  intros t H. apply g_inv_cat in H. destruct H as [x [y [-> [H K]]]]. apply g_inv_lit in H. subst x.
  apply (take (TySession y)); [exact I|reflexivity].
Qed.
Lemma t_timing : forall t, gen (cats [Lit "t="; at_most u64_max; Lit " "; at_most u64_max]) t -> taken "t" t.
Proof.
  intros t H. pieces H. apply g_at_most in G0, G2. destruct G0 as (W0 & _ & U0), G2 as (W2 & _ & U2).
  replace (List.concat _) with ([116; 61] ++ x0 ++ leads 32 [x2])
    by (cbn [List.concat leads flat_map app]; rewrite ?app_nil_r; reflexivity).
  apply (take (TyTiming {| t_start := dec_value x0; t_stop := dec_value x2 |})); [exact I|].
  exists x0, x2. split; [apply words_leads; fa; assumption|]. auto.
Qed.
Lemma t_bandwidth : forall t, gen (cats [Lit "b="; token; Lit ":"; at_most u32_max]) t -> taken "b" t.
Proof.
  intros t H. pieces H. apply g_token in G0. destruct G0 as [W0 F0]. apply g_at_most in G2. destruct G2 as (W2 & D2 & U2).
  replace (List.concat _) with ([98; 61] ++ x0 ++ 58 :: x2) by (cbn [List.concat app]; rewrite ?app_nil_r; reflexivity).
  assert (C : core (x0 ++ 58 :: x2) (x0 ++ 58 :: x2)).
  { apply core_self; [apply starts_app, word_starts, W0|apply ends_app, ends_cons, word_ends, W2]. }
  assert (FS : fields 58 (x0 ++ 58 :: x2) [x0; x2]).
  { apply fields_more; [apply (class_no _ _ _ F0); unfold token_char; lia|]. apply fields_last. apply (class_no _ _ _ D2). unfold is_digit. lia. }
  assert (K : exists b, (means_upper x0 "AS" /\ b = BwAs (dec_value x2)) \/ (means_upper x0 "CT" /\ b = BwCt (dec_value x2)) \/
     (means_upper x0 "TIAS" /\ b = BwTias (dec_value x2)) \/
     (~ means_upper x0 "AS" /\ ~ means_upper x0 "CT" /\ ~ means_upper x0 "TIAS" /\ b = BwUnknown x0 (dec_value x2))).
  { destruct (str_eqb (to_upper x0) (of_string "AS")) eqn:A; [eexists; left; split; [apply (upper_test "AS" eq_refl), A|reflexivity]|].
    destruct (str_eqb (to_upper x0) (of_string "CT")) eqn:B; [eexists; right; left; split; [apply (upper_test "CT" eq_refl), B|reflexivity]|].
    destruct (str_eqb (to_upper x0) (of_string "TIAS")) eqn:D; [eexists; right; right; left; split; [apply (upper_test "TIAS" eq_refl), D|reflexivity]|].
    eexists. right. right. right. rewrite (upper_test "AS" eq_refl), (upper_test "CT" eq_refl), (upper_test "TIAS" eq_refl), A, B, D.
    split; [discriminate|]. split; [discriminate|]. split; [discriminate|reflexivity]. }
  destruct K as [b K]. apply (take (TyBandwidth b)); [exact I|]. exists (x0 ++ 58 :: x2), x0, x2, (dec_value x2). auto.
Qed.
Lemma connection_taken : forall net ty rest k c, word net -> word ty -> word rest -> means_upper net "IN" ->
  means_upper ty (addr_type_name k) ->
  (exists addr opts, fields 47 rest (addr :: opts) /\ reads_typed k addr (conn_address c) /\
      match opts with
      | [] => conn_ttl c = None /\ conn_amount c = None
      | [ttl] => (exists n, conn_ttl c = Some n /\ numeral u8_max ttl n) /\ conn_amount c = None
      | ttl :: amount :: _ =>
          (exists n, conn_ttl c = Some n /\ numeral u8_max ttl n) /\
          (exists n, conn_amount c = Some n /\ numeral u32_max amount n)
      end) -> taken "c" ([99; 61] ++ net ++ leads 32 [ty; rest]).
Proof.
  intros net ty rest k c W1 W2 W3 M1 M2 H. apply (take (TyConnection c)); [exact I|].
  exists net, ty, rest, k. split; [apply words_leads; fa; assumption|]. auto.
Qed.
Lemma t_connection : forall t, gen (cats [Lit "c="; typed]) t -> taken "c" t.
Proof.
  intros t H. pieces H. apply (g_typed OK) in G0. destruct G0 as (net & ty & addr & k & a & -> & V1 & V2 & V3 & M1 & M2 & S & R).
  replace (List.concat _) with ([99; 61] ++ net ++ leads 32 [ty; addr])
    by (cbn [List.concat leads flat_map app]; repeat (rewrite <- app_assoc; cbn [app]); rewrite ?app_nil_r; reflexivity).
  apply (connection_taken net ty addr k {| conn_address := a; conn_ttl := None; conn_amount := None |}); auto.
  exists addr, []. split; [apply fields_last, S|]. split; [exact R|]. split; reflexivity.
Qed.
Lemma slash_fields : forall a b more, ~ In 47 a -> Forall (fun t => ~ In 47 t) (b :: more) -> fields 47 (a ++ leads 47 (b :: more)) (a :: b :: more).
Proof. intros a b more A F. apply fields_leads; assumption. Qed.
Lemma slash_word : forall a l, word a -> Forall word l -> word (a ++ leads 47 l).
Proof.
  intros a l [N A] F. split; [destruct a; [congruence|discriminate]|]. apply Forall_app. split; [exact A|].
  apply leads_class; [reflexivity|]. eapply Forall_impl; [|exact F]. intros t T. apply T.
Qed.
Lemma digits_47 : forall t, Forall is_digit t -> ~ In 47 t.
Proof. intros t D. apply (class_no _ _ _ D). unfold is_digit. lia. Qed.
Lemma t_connection4 : forall t, gen (cats [ Lit "c="; nocase "IN"; Lit " "; nocase "IP4"; Lit " "; ip4; Lit "/"; at_most 255;
  opt (Cat (Lit "/") (at_most u32_max)) ]) t -> taken "c" t.
Proof.
  intros t H. pieces H. apply g_inv_nocase in G0. apply g_inv_nocase in G2.
  pose proof (recased_is_word _ _ G0 eq_refl) as V0. pose proof (recased_is_word _ _ G2 eq_refl) as V2.
  apply recased_means_upper in G0. apply recased_means_upper in G2.
  apply (g_ip4 OK) in G4. destruct G4 as (W4 & S4 & n & R). apply g_at_most in G6. destruct G6 as (W6 & D6 & U6).
  apply g_inv_opt in G7. destruct G7 as [->|G7].
  - replace (List.concat _) with ([99; 61] ++ x0 ++ leads 32 [x2; x4 ++ leads 47 [x6]])
      by (cbn [List.concat leads flat_map app]; repeat (rewrite <- app_assoc; cbn [app]); rewrite ?app_nil_r; reflexivity).
    apply (connection_taken x0 x2 _ IpV4 {| conn_address := TIp (V4 n); conn_ttl := Some (dec_value x6); conn_amount := None |}); auto.
    + apply slash_word; fa; assumption.
    + exists x4, [x6]. split; [apply slash_fields; fa; [exact S4|apply digits_47, D6]|]. split; [right; left; eauto|]. cbn [conn_ttl conn_amount]. split; eauto.
  - apply g_inv_cat in G7. destruct G7 as [u [w [-> [A B]]]]. apply g_inv_lit in A. subst u. apply g_at_most in B. destruct B as (W7 & D7 & U7).
    replace (List.concat _) with ([99; 61] ++ x0 ++ leads 32 [x2; x4 ++ leads 47 [x6; w]])
      by (cbn [List.concat leads flat_map app]; repeat (rewrite <- app_assoc; cbn [app]); rewrite ?app_nil_r; reflexivity).
    apply (connection_taken x0 x2 _ IpV4 {| conn_address := TIp (V4 n); conn_ttl := Some (dec_value x6); conn_amount := Some (dec_value w) |}); auto.
    + apply slash_word; fa; assumption.
    + exists x4, [x6; w]. split; [apply slash_fields; fa; [exact S4|apply digits_47, D6|apply digits_47, D7]|]. split; [right; left; eauto|].
      cbn [conn_ttl conn_amount]. split; eauto.
Qed.
Lemma t_connection6 : forall t, gen (cats [Lit "c="; nocase "IN"; Lit " "; nocase "IP6"; Lit " "; ip6; Lit "/"; at_most 255]) t -> taken "c" t.
Proof.
  intros t H. pieces H. apply g_inv_nocase in G0. apply g_inv_nocase in G2.
  pose proof (recased_is_word _ _ G0 eq_refl) as V0. pose proof (recased_is_word _ _ G2 eq_refl) as V2.
  apply recased_means_upper in G0. apply recased_means_upper in G2.
  apply g_ip6 in G4. destruct G4 as (W4 & S4 & n & R). apply g_at_most in G6. destruct G6 as (W6 & D6 & U6).
  replace (List.concat _) with ([99; 61] ++ x0 ++ leads 32 [x2; x4 ++ leads 47 [x6]])
    by (cbn [List.concat leads flat_map app]; repeat (rewrite <- app_assoc; cbn [app]); rewrite ?app_nil_r; reflexivity).
  apply (connection_taken x0 x2 _ IpV6 {| conn_address := TIp (V6 n); conn_ttl := Some (dec_value x6); conn_amount := None |}); auto.
  - apply slash_word; fa; assumption.
  - exists x4, [x6]. split; [apply slash_fields; fa; [exact S4|apply digits_47, D6]|]. split; [right; right; eauto|]. cbn [conn_ttl conn_amount]. split; eauto.
Qed.
Lemma g_ports : forall t, gen ports t -> word t /\ exists p n more, fields 47 t (p :: more) /\ numeral 65535 p (dec_value p) /\
  match more with [] => n = 0 | c :: _ => numeral u32_max c n end.
Proof.
  intros t H. apply g_inv_cat in H. destruct H as [x [y [-> [H K]]]]. apply g_at_most in H. destruct H as (W & D & U).
  apply g_inv_opt in K. destruct K as [->|K].
  - rewrite app_nil_r. split; [exact W|]. exists x, 0, []. split; [apply fields_last, digits_47, D|]. auto.
  - apply g_inv_cat in K. destruct K as [u [w [-> [A B]]]]. apply g_inv_lit in A. subst u. apply g_at_most in B. destruct B as (W7 & D7 & U7).
    change (of_string "/" ++ w) with (47 :: w). split; [apply word_mid; [apply W|reflexivity|apply W7]|].
    exists x, (dec_value w), [w]. split; [apply fields_more; [apply digits_47, D|apply fields_last, digits_47, D7]|]. auto.
Qed.
Lemma g_protocol : forall t, gen (lits protocols) t -> word t /\ exists p, means_upper t (protocol_name p).
Proof.
  intros t H. apply g_inv_lits in H. destruct H as [w [M ->]].
  assert (K : exists p, protocol_name p = w).
  { unfold protocols in M. cbn [In] in M.
    destruct M as [<-|[<-|[<-|[<-|[<-|[<-|[<-|[<-|[<-|[<-|[<-|[]]]]]]]]]]]];
      [exists RtpAvp|exists RtpAvpf|exists RtpSavp|exists RtpSavpf|exists TcpDtlsRtpSavp|exists TcpDtlsRtpSavpf|exists UdpTlsRtpSavp
      |exists UdpTlsRtpSavpf|exists DtlsSctp|exists UdpDtlsSctp|exists TcpDtlsSctp]; reflexivity. }
  destruct K as [p <-]. split; [destruct p; apply word_b; reflexivity|]. exists p. destruct p; mns.
Qed.
Lemma t_media : forall t, gen (cats [ Lit "m="; lits ["audio"; "video"]%string; Lit " "; ports; Lit " "; lits protocols;
  many1 (Cat (Lit " ") payload) ]) t -> taken "m" t.
Proof.
  intros t H. pieces H. apply g_inv_lits in G0. destruct G0 as [w [M ->]].
  assert (K : exists k, media_name k = w /\ k <> Application).
  { cbn [In] in M. destruct M as [<-|[<-|[]]]; [exists Audio|exists Video]; split; reflexivity || discriminate. }
  destruct K as (k & <- & NA). apply g_ports in G2. destruct G2 as (W2 & p & n & more & F2 & U2 & M2).
  apply g_protocol in G4. destruct G4 as (W4 & pr & P4).
  apply (g_inv_leads1 32) in G5; [|reflexivity]. destruct G5 as (l & NE & F5 & ->).
  assert (FP : Forall (fun t => word t /\ numeral u32_max t (dec_value t) /\ payload_listed (dec_value t)) l).
  { eapply Forall_impl; [|exact F5]. intros t T. apply g_inv_such in T. destruct T as [T P]. apply g_inv_many1_chr in T. destruct T as [N F].
    split; [exact (digits_word t N F)|]. split; [|exact P]. apply digits_numeral; [exact N|exact F|]. destruct P as [P _]. unfold u32_max. lia. }
  assert (WP : Forall word l) by (eapply Forall_impl; [|exact FP]; cbv beta; tauto).
  assert (WK : word (of_string (media_name k))) by (destruct k; apply word_b; reflexivity).
  replace (List.concat _) with ([109; 61] ++ of_string (media_name k) ++ leads 32 (x2 :: x4 :: l))
    by (cbn [List.concat leads flat_map app]; repeat (rewrite <- app_assoc; cbn [app]); rewrite ?app_nil_r; reflexivity).
  apply (take (TyMedia {| ml_media := k; ml_port := dec_value p; ml_port_count := n; ml_proto := pr; ml_formats := Integers (map dec_value l) |}));
    [exact I|].
  exists (of_string (media_name k)), x2, x4, l. split; [apply words_leads; fa; assumption|]. split; [exact NE|].
  cbn [ml_media ml_port ml_port_count ml_proto ml_formats]. split; [destruct k; mns|]. split; [exists p, more; auto|]. split; [exact P4|].
  assert (Z : exists l', Integers (map dec_value l) = Integers l' /\ Forall2 (fun t n => numeral u32_max t n /\ payload_listed n) l l').
  { exists (map dec_value l). split; [reflexivity|]. clear -FP. induction FP as [|t l (_ & H) F IH]; [constructor|]. cbn [map]. constructor; assumption. }
  destruct k; [exact Z|exact Z|congruence].
Qed.
Lemma t_application : forall t, gen (cats [ Lit "m=application "; ports; Lit " "; lits protocols; many1 (Cat (Lit " ") token) ]) t -> taken "m" t.
Proof.
  intros t H. pieces H. apply g_ports in G0. destruct G0 as (W2 & p & n & more & F2 & U2 & M2).
  apply g_protocol in G2. destruct G2 as (W4 & pr & P4).
  apply (g_inv_leads1 32) in G3; [|reflexivity]. destruct G3 as (l & NE & F5 & ->). apply (forall_word _ _ token_word) in F5.
  assert (WK : word (lit "application")) by (apply word_b; reflexivity).
  replace (List.concat _) with ([109; 61] ++ lit "application" ++ leads 32 (x0 :: x2 :: l))
    by (cbn [List.concat leads flat_map app]; repeat (rewrite <- app_assoc; cbn [app]); rewrite ?app_nil_r; reflexivity).
  apply (take (TyMedia {| ml_media := Application; ml_port := dec_value p; ml_port_count := n; ml_proto := pr; ml_formats := Strings l |}));
    [exact I|].
  exists (lit "application"), x0, x2, l. split; [apply words_leads; fa; assumption|]. split; [exact NE|].
  cbn [ml_media ml_port ml_port_count ml_proto ml_formats]. split; [mns|]. split; [exists p, more; auto|]. split; [exact P4|reflexivity].
Qed.
Lemma lines_taken : forall k r t, In (k, r) (rfc_attributes ++ rfc_lines) -> gen r t -> taken k t.
Proof.
  intros k r t M G. apply in_app_iff in M. destruct M as [M|M]; [exact (attributes_taken k r t M G)|].
  unfold rfc_lines in M. cbn [In] in M.
  destruct M as [M|[M|[M|[M|[M|[M|[M|[M|[M|[M|[]]]]]]]]]]]; injection M as <- <-.
  - apply g_inv_lit in G. subst t. exact t_version.
  - exact (t_origin t G).
  - exact (t_session t G).
  - exact (t_timing t G).
  - exact (t_bandwidth t G).
  - exact (t_connection t G).
  - exact (t_connection4 t G).
  - exact (t_connection6 t G).
  - exact (t_media t G).
  - exact (t_application t G).
Qed.
End WithExt.

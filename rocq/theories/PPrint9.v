(** * Proofs: printed lines are read back (C11) *)
From Coq Require Import List NArith ZArith Lia Bool Ascii String.
From Coq Require Import ZifyBool ZifyNat ZifyN.
From Verif Require Import Str Num Net Types Ext Show Address AttrParse Media Session SpecApi SpecDoc SpecVal SpecItems SpecPrint.
From Verif Require Import StrLemmas NumLemmas NetLemmas PDoc4 PVal PVal2 PVal8 PVal9 PVal10 PVal11 PPrint PPrint2 PPrint3 PPrint4 PPrint5 PPrint6 PPrint7 PPrint8.
Import ListNotations.
Open Scope N_scope.
Open Scope list_scope.

Section WithExt.
Context {E : Ext}.
Context (X : ext_ok E).
Ltac prn := eapply prints_intro; [reflexivity | reflexivity | | ].

(** ** Attributes *)
Lemma value_prints : forall a, attr_range a -> attr_wf a -> ~ attr_lossy a -> ~ flag_attribute a -> exists s, prints a s.
Proof.
  intros a R W L F. destruct a; try (elim F; exact I).
  - eexists. apply candidate_prints; assumption.
  - eexists. apply dtls_prints; assumption.
  - eexists. apply extmap_prints; assumption.
  - eexists. apply fingerprint_prints; assumption.
  - eexists. apply fmtp_prints; assumption.
  - eexists. apply framerate_prints; assumption.
  - eexists. apply group_prints; assumption.
  - eexists. apply ice_options_prints; assumption.
  - eexists. prn; [apply word_ends, word_N | eapply number_prints; cbn [attr_range] in R; lia].
  - destruct W. eexists. prn; [eassumption | apply text_prints; assumption].
  - destruct W. eexists. prn; [eassumption | apply text_prints; assumption].
  - destruct W. eexists. prn; [eassumption | apply text_prints; assumption].
  - eexists. apply image_prints; assumption.
  - destruct W. eexists. prn; [eassumption | apply text_prints; assumption].
  - eexists. prn; [apply word_ends, word_N | eapply number_prints; exact R].
  - eexists. prn; [apply word_ends, word_N | eapply number_prints; exact R].
  - destruct W. eexists. prn; [eassumption | apply text_prints; assumption].
  - eexists. apply msid_prints; assumption.
  - eexists. apply msid_semantic_prints; assumption.
  - eexists. prn; [apply word_ends, word_N | eapply number_prints; exact R].
  - eexists. apply rid_prints; assumption.
  - eexists. apply remote_prints; assumption.
  - eexists. apply rtpmap_prints; assumption.
  - eexists. apply rtcp_prints; assumption.
  - eexists. apply rtcp_fb_prints; assumption.
  - eexists. apply sctpmap_prints; assumption.
  - eexists. prn; [apply word_ends, word_N | eapply number_prints; exact R].
  - eexists. apply setup_prints; assumption.
  - eexists. apply simulcast_prints; assumption.
  - eexists. apply ssrc_prints; assumption.
  - apply ssrc_group_prints; assumption.
Qed.
Lemma name_word : forall a, word (of_string (sdp_name a)) /\ ~ In 58 (of_string (sdp_name a)) /\ means (of_string (sdp_name a)) (sdp_name a).
Proof.
  intro a. assert (K : let n := of_string (sdp_name a) in
    non_empty n && no_ws n && negb (contains 58 n) && lower_word n && str_eqb (to_lower n) n = true) by (destruct a; reflexivity).
  cbv zeta in K. apply andb_prop in K. destruct K as [K K5]. apply andb_prop in K. destruct K as [K K4].
  apply andb_prop in K. destruct K as [K1 K3]. split; [apply word_b, K1|]. split.
  - apply not_in_b. destruct (contains 58 (of_string (sdp_name a))); [discriminate | reflexivity].
  - apply means_iff; [exact K4 | apply str_eqb_eq, K5].
Qed.
Lemma attribute_prints : forall a, attr_range a -> attr_wf a -> ~ attr_lossy a -> attribute_value (show_attr a) a.
Proof.
  intros a R W L. destruct (name_word a) as (N1 & N2 & N3).
  assert (D : flag_attribute a \/ ~ flag_attribute a) by (destruct a; cbn; tauto).
  destruct D as [F|F].
  - assert (T : show_attr a = of_string (sdp_name a)) by (destruct a; try destruct F; reflexivity).
    rewrite T. exists (of_string (sdp_name a)). split; [apply word_core, N1|]. left. split; [exact N2|].
    split; [exact N3 | left; exact F].
  - destruct (value_prints a R W L F) as (s & T & S & V). exists (show_attr a). split.
    + apply core_self; rewrite T; [apply starts_app, word_starts, N1 | apply ends_app, ends_cons, S].
    + right. exists (of_string (sdp_name a)), s. split; [split; [exact T | exact N2]|]. split; [exact N3 | exact V].
Qed.

(** ** The other items *)
Lemma bandwidth_prints : forall b, item_wf (TyBandwidth b) -> bandwidth_value (show_bandwidth b) b.
Proof.
  assert (K : forall ty n b, (ty = [] \/ starts_solid ty) -> ~ In 58 ty -> u32 n ->
    ((means_upper ty "AS" /\ b = BwAs n) \/ (means_upper ty "CT" /\ b = BwCt n) \/
     (means_upper ty "TIAS" /\ b = BwTias n) \/
     (~ means_upper ty "AS" /\ ~ means_upper ty "CT" /\ ~ means_upper ty "TIAS" /\
      b = BwUnknown ty n)) -> bandwidth_value (ty ++ 58 :: show_N n) b).
  { intros ty n b S N0 R M. exists (ty ++ 58 :: show_N n), ty, (show_N n), n. split; [|split; [|split]].
    - apply core_self; [|apply ends_app, ends_cons, word_ends, word_N]. destruct S as [->|S]; [|apply starts_app, S].
      exists 58, (show_N n). split; reflexivity.
    - apply fields_more; [exact N0 | apply fields_last, not_in_N; reflexivity].
    - apply numeral_printed, R.
    - exact M. }
  intros [n|n|n|t n] [R W]; cbn [show_bandwidth].
  - apply (K (lit "AS")); [right; exists 65, [83]; split; reflexivity | apply not_in_b; reflexivity | exact R|].
    left. split; [apply means_upper_iff; reflexivity | reflexivity].
  - apply (K (lit "CT")); [right; eexists; eexists; split; reflexivity | apply not_in_b; reflexivity | exact R|].
    right. left. split; [apply means_upper_iff; reflexivity | reflexivity].
  - apply (K (lit "TIAS")); [right; eexists; eexists; split; reflexivity | apply not_in_b; reflexivity | exact R|].
    right. right. left. split; [apply means_upper_iff; reflexivity | reflexivity].
  - destruct W as (W1 & W2 & W3 & W4 & W5). apply (K t); [exact W2 | exact W1 | exact R|].
    right. right. right. split; [exact W3|]. split; [exact W4|]. split; [exact W5 | reflexivity].
Qed.
Lemma connection_prints : forall c, item_wf (TyConnection c) -> connection_value (show_connection c) c.
Proof.
  intros c [(R1 & R2 & R3) [W1 W2]].
  destruct (typed_read X _ W1 R1) as (T1 & T2 & T3). destruct (addr_type_printed (typed_addr_type (conn_address c))) as [A1 A2].
  set (opts := map show_N (of_option (conn_ttl c) ++ of_option (conn_amount c))).
  assert (Fo : forall P : str -> Prop, (forall n, P (show_N n)) -> Forall P opts) by (intros P H; apply Forall_map_in; auto).
  set (rest := typed_text (conn_address c) ++ leads 47 opts).
  assert (T : show_connection c = lit "IN" ++ leads 32 [show_addr_type (typed_addr_type (conn_address c)); rest]).
  { unfold show_connection. rewrite typed_leads. unfold rest, opts, leads. cbn [flat_map].
    destruct (conn_ttl c), (conn_amount c); cbn -[show_N show_addr_type typed_text]; rewrite ?app_nil_r, <- ?app_assoc; cbn [app]; rewrite ?app_nil_r, <- ?app_assoc; reflexivity. }
  assert (Wr : word rest).
  { unfold rest. split; [intro K; apply app_eq_nil in K; destruct K as [K _]; exact (proj1 T1 K)|].
    apply no_blank_app; [exact (proj2 T1)|]. unfold leads. apply Forall_flat_map. apply Fo. intro n. constructor; [reflexivity|].
    exact (proj2 (word_N n)). }
  exists (lit "IN"), (show_addr_type (typed_addr_type (conn_address c))), rest, (typed_addr_type (conn_address c)).
  split; [rewrite T; apply words_leads; [wrd|]; constructor; [exact A1 | constructor; [exact Wr | constructor]]|].
  split; [apply means_upper_iff; reflexivity|]. split; [exact A2|].
  exists (typed_text (conn_address c)), opts. split; [|split; [exact T3|]].
  - apply fields_leads; [exact T2|]. apply Fo. intro n. apply not_in_N. reflexivity.
  - unfold opts. destruct (conn_ttl c) as [n|], (conn_amount c) as [m|]; cbn [of_option app map].
    + split; [exists n; split; [reflexivity | apply numeral_printed, R2] | exists m; split; [reflexivity | apply numeral_printed, R3]].
    + split; [exists n; split; [reflexivity | apply numeral_printed, R2] | reflexivity].
    + discriminate (W2 eq_refl).
    + split; reflexivity.
Qed.
Lemma origin_prints : forall o, item_wf (TyOrigin o) -> origin_value (show_origin o) o.
Proof.
  intros o [(R1 & R2 & R3) [W1 W2]].
  destruct (typed_read X _ W2 R3) as (T1 & T2 & T3). destruct (addr_type_printed (typed_addr_type (o_unicast_addr o))) as [A1 A2].
  exists (o_username o), (show_N (o_session_id o)), (show_N (o_session_version o)), (lit "IN"),
    (show_addr_type (typed_addr_type (o_unicast_addr o))), (typed_text (o_unicast_addr o)), [], (typed_addr_type (o_unicast_addr o)).
  split.
  { unfold show_origin. rewrite typed_leads.
    assert (T : forall a b c d e f, a ++ sp ++ b ++ sp ++ c ++ sp ++ d ++ leads 32 [e; f] = a ++ leads 32 [b; c; d; e; f]) by reflexivity.
    rewrite T. apply words_leads; [exact W1|]. fa; [apply word_N | apply word_N | wrd | exact A1 | exact T1]. }
  split; [reflexivity|]. split; [apply numeral_printed, R1|]. split; [apply numeral_printed, R2|].
  split; [apply means_upper_iff; reflexivity|]. split; [exact A2 | exact T3].
Qed.
Lemma timing_prints : forall t, item_wf (TyTiming t) -> timing_value (show_timing t) t.
Proof.
  intros t [[R1 R2] _]. exists (show_N (t_start t)), (show_N (t_stop t)). split.
  - unfold show_timing. pose proof (words_leads (show_N (t_start t)) [show_N (t_stop t)] (word_N _) ltac:(fa; apply word_N)) as K.
    unfold leads in K. cbn [flat_map] in K. rewrite app_nil_r in K. exact K.
  - split; apply numeral_printed; assumption.
Qed.
Lemma media_prints : forall m, item_wf (TyMedia m) -> media_line_value (show_media_line m) m.
Proof.
  intros m [(R1 & R2 & R3) W].
  destruct (media_printed (ml_media m)) as [M1 M2]. destruct (protocol_printed (ml_proto m)) as [P1 P2].
  assert (exists fmts, fmts <> [] /\ Forall word fmts /\ show_format_list (ml_formats m) = join [32] fmts /\
    match ml_media m with
    | Application => ml_formats m = Strings fmts
    | Audio | Video => exists l, ml_formats m = Integers l /\
        Forall2 (fun t n => numeral u32_max t n /\ payload_listed n) fmts l
    end) as (fmts & F1 & F2 & F3 & F4).
  { destruct (ml_formats m) as [l|l].
    - assert (K : l <> [] /\ Forall payload_listed l) by (destruct (ml_media m); [exact R3 | exact R3 | destruct R3]).
      destruct K as [K1 K2]. exists (map show_N l). split; [destruct l; [congruence | discriminate]|].
      split; [apply Forall_map_in; intros n _; apply word_N|]. split.
      + cbn [show_format_list]. unfold show_vec. destruct l as [|x l]; [congruence|]. cbn [app]. rewrite app_nil_r.
        rewrite filter_nonempty_id; [reflexivity|]. apply Forall_map_in. intros n _. apply show_N_nonempty.
      + assert (V : Forall2 (fun t n => numeral u32_max t n /\ payload_listed n) (map show_N l) l).
        { clear -K2. induction K2 as [|n l H F IH]; [constructor|]. cbn [map]. constructor; [|exact IH].
          split; [|exact H]. apply numeral_printed. destruct H as [H _]. unfold u32_max. lia. }
        destruct (ml_media m); [exists l; auto | exists l; auto | destruct R3].
    - exists l. destruct (ml_media m); [destruct R3 | destruct R3|].
      split; [exact R3|]. split; [exact W|]. split; reflexivity. }
  set (count := map show_N (of_option (if ml_port_count m =? 0 then None else Some (ml_port_count m)))).
  set (port := show_N (ml_port m) ++ leads 47 count).
  assert (Fc : forall P : str -> Prop, (forall n, P (show_N n)) -> Forall P count) by (intros P H; apply Forall_map_in; auto).
  assert (T : show_media_line m = show_media_value (ml_media m) ++ leads 32 (port :: show_protocol_value (ml_proto m) :: fmts)).
  { unfold show_media_line. rewrite F3. destruct fmts as [|f fmts]; [congruence|]. rewrite join_leads.
    assert (Cc : forall c a b, leads c (a :: b) = c :: a ++ leads c b) by reflexivity. rewrite !Cc.
    assert (K : maybe_param [c_slash] (ml_port_count m) 0 = leads 47 count).
    { unfold count, maybe_param. destruct (ml_port_count m =? 0); [reflexivity|]. unfold leads. cbn [of_option map flat_map].
      rewrite app_nil_r. reflexivity. }
    rewrite K. unfold port, sp, c_space. rewrite <- !app_assoc. reflexivity. }
  assert (Wp : word port).
  { unfold port. split; [intro K; apply app_eq_nil in K; destruct K as [K _]; exact (show_N_nonempty _ K)|].
    apply no_blank_app; [exact (proj2 (word_N _))|]. unfold leads. apply Forall_flat_map. apply Fc. intro n. constructor; [reflexivity|].
    exact (proj2 (word_N n)). }
  exists (show_media_value (ml_media m)), port, (show_protocol_value (ml_proto m)), fmts.
  split; [rewrite T; apply words_leads; [exact M1|]; constructor; [exact Wp|]; constructor; assumption|].
  split; [exact F1|]. split; [exact M2|]. split; [|split; [exact P2 | exact F4]].
  exists (show_N (ml_port m)), count. split; [|split].
  - apply fields_leads; [apply not_in_N; reflexivity|]. apply Fc. intro n. apply not_in_N. reflexivity.
  - apply numeral_printed, R1.
  - unfold count. destruct (N.eqb_spec (ml_port_count m) 0) as [K|K]; [exact K|]. cbn [of_option map]. apply numeral_printed, R2.
Qed.
Lemma item_prints : forall ty, item_wf ty -> ~ item_lossy ty -> line_means (printed_line ty) ty.
Proof.
  intros ty W L. exists [], (line_letter ty), [], (item_text ty).
  split; [reflexivity|]. split; [constructor|]. split; [constructor|]. split; [reflexivity|].
  destruct ty; cbn [type_value item_text].
  - destruct W. apply attribute_prints; assumption.
  - apply bandwidth_prints, W.
  - apply connection_prints, W.
  - apply media_prints, W.
  - apply origin_prints, W.
  - reflexivity.
  - apply timing_prints, W.
  - destruct W as [W _]. cbn in W. subst. exists [48]. split; [apply word_core; wrd|]. split; [|reflexivity].
    exact (numeral_printed u64_max 0 ltac:(discriminate)).
Qed.
(** C11 *)
Lemma printed_line_parses : forall ty n, item_wf ty -> ~ item_lossy ty -> countable ty (List.length (printed_line ty)) ->
  parse_sdp_line (printed_line ty) n = Ok {| l_number := n; l_type := ty; l_text := printed_line ty |}.
Proof.
  intros ty n W L C. apply line_iff; [exact C|]. split; [reflexivity|]. split; [reflexivity|]. apply item_prints; assumption.
Qed.
End WithExt.

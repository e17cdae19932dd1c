(** * Proofs: printed values are read back (C11), more kinds *)
From Coq Require Import List NArith ZArith Lia Bool Ascii String.
From Coq Require Import ZifyBool ZifyNat ZifyN.
From Verif Require Import Str Num Net Types Ext Show Address SpecApi SpecDoc SpecVal SpecItems SpecPrint.
From Verif Require Import StrLemmas NumLemmas NetLemmas PVal PVal2 PVal8 PVal9 PVal10 PVal11 PPrint PPrint2 PPrint3 PPrint4.
Import ListNotations.
Open Scope N_scope.
Open Scope list_scope.

Section WithExt.
Context {E : Ext}.
Context (X : ext_ok E).

Ltac prn := eapply prints_intro; [reflexivity | reflexivity | | ].

Ltac fa := repeat (first [apply Forall_nil | apply Forall_cons | apply Forall_app; split]).

Lemma number_prints : forall max n, n <= max -> ends_solid (show_N n) /\ number_value max (show_N n) n.
Proof.
  intros max n H. split; [apply word_ends, word_N|]. exists (show_N n).
  split; [apply word_core, word_N | apply numeral_printed, H].
Qed.
Lemma text_prints : forall t, starts_solid t -> ends_solid t -> text_value t t.
Proof. intros t S T. split; [apply core_self; assumption | apply ends_nonempty, T]. Qed.

Lemma dtls_prints : forall m, attr_wf (ADtlsMessage m) -> prints (ADtlsMessage m) (show_dtls_message m).
Proof.
  intros m W. assert (H : exists role text, show_dtls_message m = role ++ leads 32 [text] /\ word role /\ ~ In 32 text /\
    ends_solid text /\ ((is_word role "client" /\ m = DtlsClient text) \/ (is_word role "server" /\ m = DtlsServer text))).
  { destruct m as [t|t]; destruct W as [W1 W2]; cbn [show_dtls_message]; eexists; exists t;
      (split; [|split; [|split; [exact W1|split; [exact W2|]]]]);
      [rewrite <- (app_nil_r t) at 1; change (lit "client ") with (lit "client" ++ [32]); rewrite <- app_assoc; reflexivity
      | wrd | left; split; reflexivity
      | rewrite <- (app_nil_r t) at 1; change (lit "server ") with (lit "server" ++ [32]); rewrite <- app_assoc; reflexivity
      | wrd | right; split; reflexivity]. }
  destruct H as (role & text & T & Wr & N & L & D). prn.
  { rewrite T. apply ends_app. unfold leads. cbn [flat_map]. rewrite app_nil_r. apply ends_cons, L. }
  exists (show_dtls_message m), role, text. rewrite T. split; [|split; [|exact D]].
  - apply core_self; [apply starts_app, word_starts, Wr|]. apply ends_app. unfold leads. cbn [flat_map].
    rewrite app_nil_r. apply ends_cons, L.
  - apply fields_leads; [|fa; exact N]. destruct D as [[-> _]|[-> _]]; apply not_in_b; reflexivity.
Qed.

Lemma extmap_prints : forall e, attr_range (AExtmap e) -> attr_wf (AExtmap e) -> prints (AExtmap e) (show_extmap e).
Proof.
  intros e R [W1 W2]. cbn [attr_range] in R.
  set (id := show_N (ext_id e) ++ show_opt [c_slash] show_direction [] (ext_direction e)).
  assert (Wid : word id).
  { subst id. destruct (ext_direction e) as [d|]; cbn [show_opt]; [|rewrite app_nil_r; apply word_N].
    apply (word_class (fun c => dec_char c || (c =? 47) || ((97 <=? c) && (c <=? 122)))).
    - rewrite !forallb_app. apply andb_true_intro. split.
      + apply (forallb_weaken dec_char); [intros c H; rewrite H; reflexivity | apply show_N_chars].
      + destruct d; reflexivity.
    - intro K. apply app_eq_nil in K. destruct K as [K _]. exact (show_N_nonempty _ K).
    - intros c H. unfold is_ws. unfold dec_char in H. lia. }
  assert (exists more, Forall word more /\ show_extmap e = id ++ leads 32 (ext_url e :: more) /\
    match more with
    | [] => ext_attributes e = None
    | _ => ext_attributes e = Some (join [32] more) /\ Forall (fun w => ~ In 0 w) more
    end) as (more & Wm & T & M).
  { unfold show_extmap. change (show_N (ext_id e) ++ show_opt [c_slash] show_direction [] (ext_direction e) ++ ?x)
      with (show_N (ext_id e) ++ show_opt [c_slash] show_direction [] (ext_direction e) ++ x).
    rewrite app_assoc. fold id.
    destruct (ext_attributes e) as [t|]; cbn [show_opt option_wf] in *.
    - destruct W2 as (l & -> & Nl & Wl & Z). exists l. split; [exact Wl|]. split.
      + destruct l as [|x l]; [congruence|]. rewrite join_leads. cbn [leads flat_map]. rewrite app_nil_r. reflexivity.
      + destruct l as [|x l]; [congruence|]. split; [reflexivity|]. clear -Z. revert x Z.
        induction l as [|y l IH]; intros x Z; [fa; exact Z|].
        rewrite join_cons in Z by discriminate. constructor; [intro K; apply Z, in_or_app; auto|].
        apply IH. intro K. apply Z, in_or_app. right. apply in_or_app. auto.
    - exists []. split; [constructor|]. split; reflexivity. }
  prn; rewrite T.
  { apply ends_leads; [exact Wid | constructor; assumption]. }
  exists id, (ext_url e), more. split; [apply words_leads; [exact Wid | constructor; assumption]|].
  split; [reflexivity|]. split; [|exact M]. subst id. destruct (ext_direction e) as [d|]; cbn [show_opt].
  - exists (show_N (ext_id e)), (show_direction d). split; [|split; [apply numeral_printed, R | apply direction_printed]].
    split; [rewrite app_nil_r; reflexivity | apply not_in_N; reflexivity].
  - rewrite app_nil_r. split; [apply not_in_N; reflexivity | apply numeral_printed, R].
Qed.

Lemma fingerprint_prints : forall f, attr_range (AFingerprint f) -> prints (AFingerprint f) (show_fingerprint f).
Proof.
  intros f [R L]. prn.
  - unfold show_fingerprint. do 2 apply ends_app.
    assert (N : fp_bytes f <> []) by (intro K; rewrite K in L; destruct (fp_hash f); discriminate).
    destruct (exists_last N) as (l & b & ->). rewrite map_app. cbn [map].
    assert (W : word (pad0 2 (show_HEX b))).
    { apply (word_class hex_char); [apply pad0_chars; [reflexivity | apply show_HEX_chars] |
        apply pad0_nonempty, show_HEX_nonempty | apply hex_not_ws]. }
    destruct l as [|x l]; [apply word_ends, W|]. rewrite join_app by discriminate.
    apply ends_app, ends_app, word_ends, W.
  - destruct (fingerprint_printed f L R) as [_ V]. cbn [attr_value].
    replace (show_fingerprint f) with (of_string (hash_name (fp_hash f)) ++ [32] ++ join [58] (map hex_pair (fp_bytes f)));
      [exact V|]. unfold show_fingerprint.
    replace (map (fun b => pad0 2 (show_HEX b)) (fp_bytes f)) with (map hex_pair (fp_bytes f));
      [destruct (fp_hash f); reflexivity|].
    apply map_ext_in. intros b Ib. symmetry. apply hex_pair_show. exact (proj1 (Forall_forall _ _) R b Ib).
Qed.
Lemma framerate_prints : forall x, attr_range (AFrameRate x) -> prints (AFrameRate x) (show_f64 x).
Proof.
  intros x (R & N1 & N2 & N3). destruct (f64_show_chars E X x) as [N C].
  assert (W : word (show_f64 x)).
  { apply (word_class float_char); [exact C | exact N|]. intros c H. unfold float_char in H. unfold is_ws.
    apply orb_prop in H. destruct H as [H|H]; [lia|]. apply mem_N_In in H. cbn [In] in H. lia. }
  prn; [apply word_ends, W|]. exists (show_f64 x). split; [apply word_core, W|].
  split; [apply (f64_roundtrip E X); assumption | auto].
Qed.

Lemma group_prints : forall g, attr_wf (AGroup g) -> prints (AGroup g) (show_group g).
Proof.
  intros g W. cbn [attr_wf] in W. destruct (group_printed (grp_semantics g)) as [W1 M1].
  assert (T : show_group g = show_group_semantic (grp_semantics g) ++ leads 32 (grp_tags g)).
  { unfold show_group. f_equal. destruct (grp_tags g) as [|t l]; [reflexivity|]. cbn [show_vec]. rewrite app_nil_r.
    rewrite map_id, filter_all.
    - unfold sp, c_space. rewrite join_leads. reflexivity.
    - apply forallb_forall. intros x Hx. rewrite Forall_forall in W. destruct (W x Hx) as [N _].
      unfold non_empty. rewrite (proj2 (is_empty_false x) N). reflexivity. }
  prn; rewrite T.
  - apply ends_leads; assumption.
  - exists (show_group_semantic (grp_semantics g)). split; [apply words_leads; assumption | exact M1].
Qed.
Lemma ice_options_prints : forall l, attr_wf (AIceOptions l) -> prints (AIceOptions l) (join sp l).
Proof. intros l [N W]. prn; [apply ends_join_words; assumption|]. split; [apply words_join, W | exact N]. Qed.
Lemma msid_prints : forall m, attr_wf (AMsid m) -> prints (AMsid m) (show_msid m).
Proof.
  intros m [W1 W2].
  assert (T : show_msid m = msid_id m ++ leads 32 (of_option (msid_appdata m))).
  { unfold show_msid. rewrite (show_opt_leads _ 32) by reflexivity. destruct (msid_appdata m); reflexivity. }
  assert (W : Forall word (of_option (msid_appdata m))) by (destruct (msid_appdata m); cbn; fa; assumption).
  prn; rewrite T.
  - apply ends_leads; assumption.
  - exists (of_option (msid_appdata m)). split; [apply words_leads; assumption|]. destruct (msid_appdata m); reflexivity.
Qed.
Lemma msid_semantic_prints : forall m, attr_wf (AMsidSemantic m) -> ms_msids m <> [] ->
  prints (AMsidSemantic m) (show_msid_semantic m).
Proof.
  intros m [W1 W2] N.
  assert (T : show_msid_semantic m = ms_semantic m ++ leads 32 (ms_msids m)).
  { unfold show_msid_semantic. f_equal. destruct (ms_msids m) as [|x l]; [congruence|].
    unfold sp, c_space. rewrite join_leads. reflexivity. }
  prn; rewrite T; [apply ends_leads; assumption | apply words_leads; assumption].
Qed.
Lemma remote_prints : forall c, attr_range (ARemoteCandidate c) -> attr_wf (ARemoteCandidate c) ->
  prints (ARemoteCandidate c) (show_remote_candidate c).
Proof.
  intros c (R1 & R2 & R3) W. destruct (address_read X _ W R3) as [A1 A2].
  assert (T : show_remote_candidate c = show_N (rc_component c) ++ leads 32 [show_address (rc_address c); show_N (rc_port c)]).
  { unfold show_remote_candidate, leads. cbn [flat_map]. rewrite app_nil_r. reflexivity. }
  assert (F : Forall word [show_address (rc_address c); show_N (rc_port c)]) by (fa; [exact A1 | apply word_N]).
  prn; rewrite T.
  - apply ends_leads; [apply word_N | exact F].
  - exists (show_N (rc_component c)), (show_address (rc_address c)), (show_N (rc_port c)), [].
    split; [apply words_leads; [apply word_N | exact F]|]. split; [apply numeral_printed, R1|].
    split; [exact A2 | apply numeral_printed, R2].
Qed.
Lemma no_blank_app : forall a b, no_blank a -> no_blank b -> no_blank (a ++ b).
Proof. intros a b Ha Hb. apply Forall_app. split; assumption. Qed.
Lemma rtpmap_prints : forall r, attr_range (ARtpmap r) -> attr_wf (ARtpmap r) -> prints (ARtpmap r) (show_rtpmap r).
Proof.
  intros r (R1 & R2 & R3) [W1 W2].
  set (rest := of_option (option_map show_N (rm_channels r))).
  set (codec := rm_codec_name r ++ leads 47 (show_N (rm_frequency r) :: rest)).
  assert (T : show_rtpmap r = show_N (rm_payload_type r) ++ leads 32 [codec]).
  { unfold show_rtpmap, leads. rewrite (show_opt_leads _ 47) by reflexivity. subst codec rest.
    cbn [flat_map]. rewrite app_nil_r. reflexivity. }
  assert (Wc : word codec).
  { subst codec. split.
    - intro K. apply app_eq_nil in K. destruct K as [_ K]. discriminate.
    - apply no_blank_app; [exact W1|]. unfold leads. cbn [flat_map].
      change (47 :: ?x) with ([47] ++ x). repeat apply no_blank_app; try (fa; reflexivity).
      + apply word_no_blank, word_N.
      + subst rest. destruct (rm_channels r); cbn; [|constructor]. constructor; [reflexivity|]. rewrite app_nil_r.
        apply word_no_blank, word_N. }
  prn; rewrite T.
  - apply ends_leads; [apply word_N | fa; exact Wc].
  - exists (show_N (rm_payload_type r)), codec, [], (show_N (rm_frequency r)), rest.
    split; [apply words_leads; [apply word_N | fa; exact Wc]|]. split; [apply numeral_printed, R1|].
    split; [|split; [apply numeral_printed, R2|]].
    + apply fields_leads; [exact W2|]. fa; [apply not_in_N; reflexivity|]. subst rest.
      destruct (rm_channels r); cbn; fa. apply not_in_N. reflexivity.
    + subst rest. destruct (rm_channels r) as [n|]; cbn; [|reflexivity].
      exists n. split; [reflexivity | apply numeral_printed, R3].
Qed.
Lemma rtcp_prints : forall r, attr_range (ARtcp r) -> attr_wf (ARtcp r) -> prints (ARtcp r) (show_rtcp r).
Proof.
  intros r [R1 R2] W. cbn [attr_wf] in W. prn; unfold show_rtcp.
  - destruct (rtcp_unicast_addr r) as [a|]; [|apply word_ends, word_N]. destruct (typed_read X _ W R2) as (A1 & _ & _).
    do 2 apply ends_app. rewrite typed_leads. apply ends_leads; [wrd|]. fa; [apply addr_type_printed | exact A1].
  - unfold attr_value, rtcp_value. destruct (rtcp_unicast_addr r) as [a|].
    + destruct (typed_read X _ W R2) as (A1 & _ & A2).
      exists (show_N (rtcp_port r)), [lit "IN"; show_addr_type (typed_addr_type a); typed_text a].
      split; [|split; [apply numeral_printed, R1|]].
      * rewrite typed_leads. apply (words_leads _ [lit "IN"; show_addr_type (typed_addr_type a); typed_text a]);
          [apply word_N|]. fa; [wrd | apply addr_type_printed | exact A1].
      * split; [mns|]. exists (typed_addr_type a), a. split; [apply addr_type_printed|]. split; [exact A2 | reflexivity].
    + exists (show_N (rtcp_port r)), []. split; [|split; [apply numeral_printed, R1 | reflexivity]].
      apply words_sws, sws_one, show_N_token.
Qed.
Lemma sctpmap_prints : forall s, attr_range (ASctpmap s) -> prints (ASctpmap s) (show_sctpmap s).
Proof.
  intros s [R1 R2].
  assert (T : show_sctpmap s = show_N (sm_port s) ++ leads 32 [lit "webrtc-datachannel"; show_N (sm_channels s)]).
  { unfold show_sctpmap, leads. cbn [flat_map]. rewrite app_nil_r. reflexivity. }
  assert (F : Forall word [lit "webrtc-datachannel"; show_N (sm_channels s)]) by (fa; [wrd | apply word_N]).
  prn; rewrite T.
  - apply ends_leads; [apply word_N | exact F].
  - do 3 eexists. split; [apply words_leads; [apply word_N | exact F]|]. split; [apply numeral_printed, R1|].
    split; [mns | apply numeral_printed, R2].
Qed.
Lemma setup_prints : forall s, prints (ASetup s) (show_setup s).
Proof.
  intro s. destruct (setup_printed s) as [W M]. prn; [apply word_ends, W|]. exists (show_setup s).
  split; [apply word_core, W | exact M].
Qed.
Lemma ssrc_prints : forall s, attr_range (ASsrc s) -> attr_wf (ASsrc s) -> prints (ASsrc s) (show_ssrc s).
Proof.
  intros s R W. cbn [attr_range attr_wf] in *. unfold ssrc_wf in W.
  assert (H : ends_solid (show_ssrc s) /\ ssrc_value_ (show_ssrc s) s).
  { unfold show_ssrc, ssrc_value_. destruct (ssrc_attribute s) as [a|] eqn:Ea, (ssrc_value s) as [v|] eqn:Ev; try contradiction.
    - destruct W as [N L]. cbn [show_opt]. rewrite !app_nil_r. split.
      + do 2 apply ends_app. destruct L as [->|L]; [|apply ends_app, L].
        exists 58, []. split; reflexivity.
      + right. exists (show_N (ssrc_id s)), (a ++ 58 :: v). split; [|split; [apply numeral_printed, R|]].
        * split; [|apply not_in_N; reflexivity]. rewrite <- app_assoc. reflexivity.
        * right. exists a, v. split; [split; [reflexivity | exact N] | auto].
    - destruct W as [N L]. cbn [show_opt]. rewrite !app_nil_r. split; [apply ends_app, ends_app, L|].
      right. exists (show_N (ssrc_id s)), a. split; [split; [reflexivity | apply not_in_N; reflexivity]|].
      split; [apply numeral_printed, R|]. left. auto.
    - cbn [show_opt]. rewrite !app_nil_r. split; [apply word_ends, word_N|]. left.
      split; [apply not_in_N; reflexivity|]. split; [apply numeral_printed, R | auto]. }
  destruct H as [L V]. prn; [exact L|]. exists (show_ssrc s). split; [|exact V].
  apply core_self; [|exact L]. unfold show_ssrc. apply starts_app, word_starts, word_N.
Qed.
Lemma ssrc_group_prints : forall g l, attr_range (ASsrcGroup g l) -> attr_wf (ASsrcGroup g l) ->
  exists s, prints (ASsrcGroup g l) s.
Proof.
  intros g l [N R] W. cbn [attr_wf] in W. destruct (ssrc_group_printed g) as [Wg Mg].
  assert (Em : map show_ssrc l = map (fun s => show_N (ssrc_id s)) l).
  { apply map_ext_in. intros s Hs. rewrite Forall_forall in W. destruct (W s Hs) as [E1 E2]. unfold show_ssrc.
    rewrite E1, E2. cbn [show_opt]. rewrite !app_nil_r. reflexivity. }
  assert (Wm : Forall word (map show_ssrc l)).
  { rewrite Em. apply Forall_forall. intros t Ht. apply in_map_iff in Ht. destruct Ht as (s & <- & _). apply word_N. }
  exists (show_ssrc_group_semantic g ++ leads 32 (map show_ssrc l)). split; [|split].
  - cbn [show_attr sdp_name]. unfold attr_to_string.
    rewrite (proj2 (is_empty_false (show_ssrc_group_semantic g))) by (destruct g; discriminate).
    destruct (map show_ssrc l) as [|x r] eqn:K; [destruct l; [congruence | discriminate]|].
    unfold sp, c_space. rewrite join_leads. cbn [show_attr_type]. rewrite <- !app_assoc. reflexivity.
  - apply ends_leads; assumption.
  - exists (show_ssrc_group_semantic g), (map show_ssrc l). split; [apply words_leads; assumption|].
    split; [exact Mg|]. split; [destruct l; [congruence | discriminate]|]. rewrite Em. clear -R W.
    induction l as [|s l IH]; [constructor|]. inversion R; inversion W; subst. cbn [map].
    constructor; [split; [apply numeral_printed; assumption | assumption] | auto].
Qed.
Lemma parts_more : forall n a b l r, ~ In 32 a -> space_parts (S n) (b ++ leads 32 l) r ->
  space_parts (S (S n)) (a ++ leads 32 (b :: l)) (a :: r).
Proof. intros n a b l r N H. right. exists a, (b ++ leads 32 l), r. split; [split; [reflexivity | exact N]|]. auto. Qed.
Lemma parts_end : forall n a, ~ In 32 a -> space_parts (S n) (a ++ leads 32 []) [a].
Proof. intros n a N. unfold leads. cbn [flat_map]. rewrite app_nil_r. destruct n; [reflexivity | left; auto]. Qed.
Lemma parts_last : forall a, space_parts 1 (a ++ leads 32 []) [a].
Proof. intros a. unfold leads. cbn [flat_map]. rewrite app_nil_r. reflexivity. Qed.
Lemma no_blank_space : forall t, no_blank t -> ~ In 32 t.
Proof. intros t H K. unfold no_blank in H. rewrite Forall_forall in H. apply H in K. discriminate. Qed.
Lemma fb_printed : forall t, word (show_rtcp_fb_type t) /\ is_word (show_rtcp_fb_type t) (fb_name t).
Proof. intros []; split; (wrd || reflexivity). Qed.
Lemma fb_param_word : forall t p, fb_parameter_ok t (Some p) -> word p.
Proof.
  intros t p H. destruct t; cbn [fb_parameter_ok] in H; try contradiction;
    try (cbn [In] in H; repeat (destruct H as [<-|H]; [wrd|]); contradiction).
  destruct H as (n & H). pose proof (numeral_chars _ _ _ H) as C. split.
  - intros ->. exact (numeral_nonempty _ _ H).
  - apply Forall_forall. intros c Hc. destruct (C c Hc) as [[? ?]| ->]; [unfold is_ws; lia | reflexivity].
Qed.
Lemma rtcp_fb_prints : forall f, attr_range (ARtcpfb f) -> attr_wf (ARtcpfb f) -> prints (ARtcpfb f) (show_rtcp_fb f).
Proof.
  intros f R [W1 W2]. cbn [attr_range] in R. destruct (payload_printed _ R) as [Wp Vp].
  destruct (fb_printed (fb_feedback_type f)) as [Wt Vt].
  set (more := match fb_parameter f with [] => [] | p => match fb_extra f with [] => [p] | e => [p; e] end end).
  assert (T : show_rtcp_fb f = show_payload_type (fb_payload_type f) ++
    leads 32 (show_rtcp_fb_type (fb_feedback_type f) :: more)).
  { unfold show_rtcp_fb. subst more. destruct (fb_parameter f) as [|c p].
    - unfold leads. cbn [is_empty flat_map]. reflexivity.
    - cbn [is_empty]. unfold maybe_param_str. destruct (fb_extra f) as [|d e]; unfold leads; cbn [flat_map];
        rewrite ?app_nil_r; reflexivity. }
  assert (Ws : starts_solid (show_rtcp_fb f)) by (rewrite T; apply starts_app, word_starts, Wp).
  assert (We : ends_solid (show_rtcp_fb f)).
  { rewrite T. subst more. destruct (fb_parameter f) as [|c p]; [apply ends_leads; [exact Wp | fa; exact Wt]|].
    apply fb_param_word in W1. destruct (fb_extra f) as [|d e]; [apply ends_leads; [exact Wp | fa; [exact Wt | exact W1]]|].
    destruct W2 as [K|[_ L]]; [discriminate|]. unfold leads. cbn [flat_map]. rewrite app_nil_r.
    apply ends_app, ends_cons, ends_app. apply (ends_app (32 :: c :: p) (32 :: d :: e)). apply ends_cons, L. }
  prn; [exact We|]. exists (show_rtcp_fb f), (show_payload_type (fb_payload_type f)),
    (show_rtcp_fb_type (fb_feedback_type f)), more.
  split; [apply core_self; assumption|]. split; [|split; [exact Vp|split; [exact Vt|]]].
  - rewrite T. apply word_no_blank, no_blank_space in Wp, Wt. apply parts_more; [exact Wp|].
    subst more. destruct (fb_parameter f) as [|c p]; [apply parts_end, Wt|].
    apply fb_param_word, word_no_blank, no_blank_space in W1. cbv zeta.
    destruct (fb_extra f) as [|d e]; (apply parts_more; [exact Wt|]); [apply parts_end, W1|].
    apply parts_more; [exact W1 | apply parts_last].
  - subst more. destruct (fb_parameter f) as [|c p]; [|destruct (fb_extra f)].
    + split; [exact W1|]. split; [reflexivity|]. destruct W2 as [W2|[W2 _]]; [exact W2 | congruence].
    + split; [exact W1|]. split; reflexivity.
    + split; [exact W1|]. split; reflexivity.
Qed.
End WithExt.

(** * Lines of the RFCs are printed as lines of the RFCs (C80): feedback, simulcast *)
From Coq Require Import List Arith NArith ZArith Lia Bool Ascii String.
From Coq Require Import ZifyBool ZifyNat ZifyN.
From Verif Require Import Str Num Net Types Ext Show Address AttrParse Media Session SpecApi SpecDoc SpecVal SpecItems
  SpecPrint SpecIp SpecGrammar.
From Verif Require Import StrLemmas NumLemmas NetLemmas PVal PVal2 PVal8 PVal9 PVal10 PVal11 PPrint PPrint2 PPrint3 PPrint4
  PPrint9 PPrint11 PIp PIp2 PDoc3 PExt0 PSettle.
From Verif Require Import SpecRfc PRfc PRfc2 PRfc3 PRfc4 PRfc9 PRfc16 PRfc17 PRfc18.
Import ListNotations.
Open Scope N_scope.
Open Scope list_scope.

Section WithExt.
Context {E : Ext}.
(** ** rtcp-fb *)
Lemma fb_same : forall r pt p ty par more, payload_value pt p -> word pt -> ~ In 32 pt ->
  fb_parameter_ok ty (Some par) -> word par -> ~ In 32 par -> more = [] \/ (exists u, more = 32 :: u /\ ends_solid u) ->
  gen r (show_payload_type p ++ 32 :: of_string (fb_name ty) ++ 32 :: par ++ more) ->
  again r "rtcp-fb" (pt ++ 32 :: of_string (fb_name ty) ++ 32 :: par ++ more).
Proof.
  intros r pt p ty par more P W S O Wp Sp M G.
  assert (SN : ~ In 32 (of_string (fb_name ty))) by (destruct ty; apply not_in_b; reflexivity).
  assert (En : ends_solid (pt ++ 32 :: of_string (fb_name ty) ++ 32 :: par ++ more)).
  { apply ends_app, ends_cons, ends_app, ends_cons. destruct M as [->|[u [-> U]]].
    - rewrite app_nil_r. apply word_ends, Wp.
    - apply ends_app, ends_cons, U. }
  apply (again_solid _ _ (ARtcpfb {| fb_payload_type := p; fb_feedback_type := ty; fb_parameter := par; fb_extra := tl more |})
    (show_payload_type p ++ 32 :: of_string (fb_name ty) ++ 32 :: par ++ more));
    [exact En|exact I| | |exact G].
  - eexists. exists pt, (of_string (fb_name ty)), (par :: match more with [] => [] | _ :: u => [u] end).
    split; [apply core_self; [apply starts_app, word_starts, W|exact En]|]. split.
    + cbn [space_parts]. right. exists pt. eexists. eexists. split; [split; [reflexivity|exact S]|]. split; [reflexivity|].
      right. exists (of_string (fb_name ty)). eexists. eexists. split; [split; [reflexivity|exact SN]|]. split; [reflexivity|].
      destruct M as [->|[u [-> U]]].
      * left. rewrite app_nil_r. auto.
      * right. exists par, u, [u]. split; [split; [reflexivity|exact Sp]|]. auto.
    + cbn [fb_payload_type fb_feedback_type fb_parameter fb_extra hd_error hd tl]. split; [exact P|]. split; [reflexivity|].
      split; [exact O|]. split; [reflexivity|]. destruct M as [->|[u [-> U]]]; reflexivity.
  - cbn [show_attr]. unfold show_rtcp_fb. cbn [fb_payload_type fb_feedback_type fb_parameter fb_extra].
    destruct Wp as [Np _]. destruct par as [|c par]; [congruence|]. cbn [is_empty].
    replace (maybe_param_str sp (tl more) []) with more.
    + change (show_rtcp_fb_type ty) with (of_string (fb_name ty)) || replace (show_rtcp_fb_type ty) with (of_string (fb_name ty)) by (destruct ty; reflexivity).
      apply (shown TRtcpfb). destruct p; [|discriminate]. cbn [show_payload_type].
      match goal with |- show_N ?n ++ _ <> _ => pose proof (show_N_nonempty n); destruct (show_N n); [congruence|discriminate] end.
    + destruct M as [->|[u [-> [d [x [-> _]]]]]]; [reflexivity|]. cbn [tl]. unfold maybe_param_str. destruct x; reflexivity.
Qed.
Lemma fb_alone_same : forall r pt p ty, payload_value pt p -> word pt -> ~ In 32 pt -> fb_parameter_ok ty None ->
  gen r (show_payload_type p ++ 32 :: of_string (fb_name ty)) ->
  again r "rtcp-fb" (pt ++ 32 :: of_string (fb_name ty)).
Proof.
  intros r pt p ty P W S O G.
  assert (SN : ~ In 32 (of_string (fb_name ty))) by (destruct ty; apply not_in_b; reflexivity).
  assert (WN : word (of_string (fb_name ty))) by (destruct ty; apply word_b; reflexivity).
  apply (again_solid _ _ (ARtcpfb {| fb_payload_type := p; fb_feedback_type := ty; fb_parameter := []; fb_extra := [] |})
    (show_payload_type p ++ 32 :: of_string (fb_name ty)));
    [apply ends_app, ends_cons, word_ends, WN|exact I| | |exact G].
  - eexists. exists pt, (of_string (fb_name ty)), [].
    split; [apply core_self; [apply starts_app, word_starts, W|apply ends_app, ends_cons, word_ends, WN]|]. split.
    + cbn [space_parts]. right. exists pt. eexists. eexists. split; [split; [reflexivity|exact S]|]. split; [reflexivity|].
      left. auto.
    + cbn [fb_payload_type fb_feedback_type fb_parameter fb_extra hd_error hd tl]. split; [exact P|]. split; [reflexivity|].
      split; [exact O|]. split; reflexivity.
  - cbn [show_attr]. unfold show_rtcp_fb. cbn [fb_payload_type fb_feedback_type fb_parameter fb_extra is_empty]. rewrite app_nil_r.
    replace (show_rtcp_fb_type ty) with (of_string (fb_name ty)) by (destruct ty; reflexivity).
    apply (shown TRtcpfb). destruct p; [|discriminate]. cbn [show_payload_type].
    match goal with |- show_N ?n ++ _ <> _ => pose proof (show_N_nonempty n); destruct (show_N n); [congruence|discriminate] end.
Qed.
Lemma a_rtcp_fb : again_of ("rtcp-fb"%string, rfc_rtcp_fb).
Proof.
  starting. pieces H.
  assert (K : word x /\ ~ In 32 x /\ exists p, payload_value x p /\ gen (Or (Lit "*") (at_most 255)) (show_payload_type p)).
  { apply g_inv_or in G. destruct G as [G|G].
    - apply g_inv_lit in G. subst x. split; [apply word_b; reflexivity|]. split; [apply not_in_b; reflexivity|].
      exists Wildcard. split; [reflexivity|]. apply gen_or_left. exact (gen_lit "*").
    - pose proof G as GG. apply PRfc.g_at_most in G. destruct G as (W & D & U). split; [exact W|]. split; [apply (class_no _ _ _ D); unfold is_digit; lia|].
      exists (PayloadType (dec_value x)). split; [exact U|]. apply gen_or_right, g_again, GG. }
  destruct K as (W & S & p & P & GP). clear G. pose proof G1 as GG.
  assert (GA : gen rfc_rtcp_fb (show_payload_type p ++ 32 :: x1)).
  { parts [show_payload_type p; lit " "; x1]; [exact GP|exact GG|flat]. }
  clear GG.
  assert (J : forall ty par more, x1 = of_string (fb_name ty) ++ 32 :: par ++ more -> fb_parameter_ok ty (Some par) -> word par ->
    ~ In 32 par -> gen rest more -> again rfc_rtcp_fb "rtcp-fb" (List.concat [x; of_string " "; x1])).
  { intros ty par more -> O Wp Sp M. same (x ++ 32 :: of_string (fb_name ty) ++ 32 :: par ++ more).
    apply (fb_same _ x p); auto. apply g_rest, M. }
  assert (L : forall ty w l, gen (cats [Lit w; lits l; rest]) x1 -> of_string w = of_string (fb_name ty) ++ [32] ->
    (forall y, In y l -> fb_parameter_ok ty (Some (of_string y)) /\ non_empty (of_string y) && no_ws (of_string y) = true) ->
    again rfc_rtcp_fb "rtcp-fb" (List.concat [x; of_string " "; x1])).
  { intros ty w l H Hw Hl. pieces H. apply g_inv_lits in G0. destruct G0 as [y [Y ->]]. apply Hl in Y.
    assert (Wy : word (of_string y)) by (apply word_b, Y).
    apply (J ty (of_string y) x2); try apply Y.
    - cbn [List.concat]. rewrite Hw, app_nil_r, <- app_assoc. reflexivity.
    - exact Wy.
    - destruct Wy as [_ Z]. apply (class_no _ _ _ Z). discriminate.
    - exact G2. }
  assert (Al : forall ty, x1 = of_string (fb_name ty) -> fb_parameter_ok ty None ->
    again rfc_rtcp_fb "rtcp-fb" (List.concat [x; of_string " "; x1])).
  { intros ty -> O. same (x ++ 32 :: of_string (fb_name ty)). apply (fb_alone_same _ x p); assumption. }
  apply g_inv_alt in G1. destruct G1 as [r [M H]]. cbn [In] in M.
  destruct M as [<-|[<-|[<-|[<-|[<-|[<-|[<-|[]]]]]]]].
  - apply (L FbAck "ack "%string _ H eq_refl). intros y [<-|[<-|[]]]; (split; [cbn; tauto|reflexivity]).
  - apply (Al FbNack); [exact (g_inv_lit _ _ H)|exact I].
  - apply (L FbNack "nack "%string _ H eq_refl). intros y [<-|[<-|[<-|[<-|[]]]]]; (split; [cbn; tauto|reflexivity]).
  - apply (L FbCcm "ccm "%string _ H eq_refl). intros y [<-|[<-|[<-|[<-|[]]]]]; (split; [cbn; tauto|reflexivity]).
  - apply g_inv_cat in H. destruct H as [u [w [-> [H V]]]]. apply g_inv_lit in H. subst u.
    apply PRfc.g_at_most in V. destruct V as (Wp & D & U).
    apply (J FbTrrInt w []).
    + rewrite app_nil_r. reflexivity.
    + exists (dec_value w). exact U.
    + exact Wp.
    + apply (class_no _ _ _ D). unfold is_digit. lia.
    + apply gen_or_left, gen_lit.
  - apply (Al FbRemb); [exact (g_inv_lit _ _ H)|exact I].
  - apply (Al FbTransCc); [exact (g_inv_lit _ _ H)|exact I].
Qed.

(** ** simulcast: the same text *)
Lemma id_same : forall t i, simulcast_id_value t i -> show_simulcast_id i = t.
Proof.
  intros t [id p] H. unfold simulcast_id_value in H. cbn [sid_id sid_paused] in H. unfold show_simulcast_id. cbn [sid_id sid_paused].
  destruct p; [|apply proj1 in H]; subst t; reflexivity.
Qed.
Lemma fields_join : forall c t l, fields c t l -> join [c] l = t.
Proof.
  intros c t l F. induction F as [t N|a rest l N F IH]; [reflexivity|].
  destruct l as [|b l]; [inversion F|]. rewrite join_cons by discriminate. rewrite IH. cbn [app]. reflexivity.
Qed.
Lemma version_same : forall t v, simulcast_version_value t v -> show_simulcast_version v = t.
Proof.
  intros t v (ids & F & V). unfold show_simulcast_version. change [c_comma] with [44]. rewrite <- (fields_join _ _ _ F). f_equal.
  clear F. induction V as [|x i xs is H V IH]; [reflexivity|]. cbn [map]. rewrite (id_same _ _ H), IH. reflexivity.
Qed.
Lemma streams_same : forall t, gen stream_list t -> word t /\ exists l, simulcast_list_value t l /\ l <> [] /\
  show_vec [] [] [59] show_simulcast_version l = t.
Proof.
  intros t H. pose proof (g_streams t H) as [W _]. split; [exact W|].
  apply (g_inv_list 59) in H; [|reflexivity]. destruct H as [x [l [F ->]]].
  assert (FS : Forall (fun t => ~ In 59 t) (x :: l)).
  { eapply Forall_impl; [|exact F]. intros t T. apply (class_no _ _ _ (proj1 (proj2 (g_version t T)))).
    unfold rid_char, alpha_num. lia. }
  assert (FV : Forall (fun t => exists i, simulcast_version_value t i) (x :: l)).
  { eapply Forall_impl; [|exact F]. intros t T. apply (g_version t T). }
  assert (FN : Forall (fun t => t <> []) (x :: l)).
  { eapply Forall_impl; [|exact F]. intros t T. apply (g_version t T). }
  assert (A : Forall stream_char (x ++ leads 59 l)).
  { assert (FC : Forall (Forall stream_char) (x :: l)).
    { eapply Forall_impl; [|exact F]. intros t T. eapply Forall_impl; [|apply (g_version t T)]. cbv beta. unfold stream_char. tauto. }
    inversion FC; subst. apply Forall_app. split; [assumption|]. apply leads_class; [unfold stream_char; tauto|assumption]. }
  apply forall2_exists in FV. destruct FV as [m FV]. exists m. split; [|split].
  - exists (x ++ leads 59 l), (x :: l). split.
    + right. split; [|reflexivity]. apply (class_no _ _ _ A). unfold stream_char, rid_char, alpha_num. lia.
    + split; [|exact FV]. inversion FS; subst. apply fields_leads; assumption.
  - inversion FV; subst. discriminate.
  - assert (Q : map show_simulcast_version m = x :: l).
    { clear -FV. induction FV as [|t v ts vs H V IH]; [reflexivity|]. cbn [map]. rewrite (version_same _ _ H), IH. reflexivity. }
    unfold show_vec. destruct m as [|v m]; [discriminate Q|]. rewrite Q.
    replace (filter non_empty (x :: l)) with (x :: l).
    + rewrite join_leads, app_nil_r. reflexivity.
    + clear -FN. generalize dependent (x :: l). intros ts FN. induction FN as [|t ts N F IH]; [reflexivity|]. cbn [filter]. destruct t; [congruence|]. cbn. rewrite <- IH. reflexivity.
Qed.
Lemma show_vec_pre : forall {A} pre sep (show : A -> str) l, l <> [] -> show_vec pre [] sep show l = pre ++ show_vec [] [] sep show l.
Proof. intros A pre sep show l N. destruct l; [congruence|]. cbn [show_vec app]. reflexivity. Qed.
Lemma one_shown : forall l t d, l <> [] -> show_vec [] [] [59] show_simulcast_version l = t ->
  show_simulcast match d with Send => {| sim_send := l; sim_receive := [] |} | Recv => {| sim_send := []; sim_receive := l |} end =
  of_string (single_direction_name d) ++ 32 :: t.
Proof.
  intros l t d N Q. unfold show_simulcast. change [c_semi] with [59]. destruct d; cbn [sim_send sim_receive]; rewrite (show_vec_pre _ _ _ _ N), Q; reflexivity.
Qed.
Lemma two_shown : forall l t l2 u, l <> [] -> show_vec [] [] [59] show_simulcast_version l = t ->
  l2 <> [] -> show_vec [] [] [59] show_simulcast_version l2 = u ->
  show_simulcast {| sim_send := l; sim_receive := l2 |} = lit "send " ++ t ++ lit " recv " ++ u.
Proof.
  intros l t l2 u N Q N2 Q2. unfold show_simulcast. change [c_semi] with [59]. cbn [sim_send sim_receive].
  rewrite (show_vec_pre _ _ _ _ N), Q, (show_vec_pre _ _ _ _ N2), Q2. cbn [non_empty_vec filter]. cbn [join app]. reflexivity.
Qed.
Lemma simulcast_one_same : forall d t, gen stream_list t -> again rfc_simulcast "simulcast" (of_string (single_direction_name d) ++ leads 32 [t]).
Proof.
  intros d t H. pose proof H as G. apply streams_same in H. destruct H as (W & l & V & N & Q).
  assert (WD : word (of_string (single_direction_name d))) by (destruct d; apply word_b; reflexivity).
  apply (again_solid _ _ (ASimulcast match d with Send => {| sim_send := l; sim_receive := [] |} | Recv => {| sim_send := []; sim_receive := l |} end)
    (of_string (single_direction_name d) ++ 32 :: t)); [apply ends_leads; fa; assumption|exact I| | |].
  - exists (of_string (single_direction_name d)), t, []. split; [apply words_leads; fa; assumption|].
    exists d, l, []. split; [reflexivity|]. split; [exact V|]. split; [reflexivity|]. destruct d; split; reflexivity.
  - cbn [show_attr]. rewrite (one_shown _ _ _ N Q). apply (shown TSimulcast). destruct d; discriminate.
  - unfold rfc_simulcast. destruct d; cbn [alt].
    + apply gen_or_left. apply (gen_cat _ _ (lit "send ")); [apply gen_lit|exact G].
    + apply gen_or_right, gen_or_left. apply (gen_cat _ _ (lit "recv ")); [apply gen_lit|exact G].
Qed.
Lemma simulcast_two_same : forall d t u, gen stream_list t -> gen stream_list u ->
  again rfc_simulcast "simulcast" (of_string (single_direction_name d) ++ leads 32 [t; of_string (single_direction_name (other d)); u]).
Proof.
  intros d t u H K. pose proof H as G. pose proof K as GK. apply streams_same in H, K. destruct H as (W & l & V & N & Q), K as (W2 & l2 & V2 & N2 & Q2).
  assert (WD : forall d, word (of_string (single_direction_name d))) by (intros []; apply word_b; reflexivity).
  apply (again_solid _ _ (ASimulcast match d with Send => {| sim_send := l; sim_receive := l2 |} | Recv => {| sim_send := l2; sim_receive := l |} end)
    (match d with Send => lit "send " ++ t ++ lit " recv " ++ u | Recv => lit "send " ++ u ++ lit " recv " ++ t end));
    [apply ends_leads; fa; auto|exact I| | |].
  - exists (of_string (single_direction_name d)), t, [of_string (single_direction_name (other d)); u].
    split; [apply words_leads; fa; auto|].
    exists d, l, l2. split; [reflexivity|]. split; [exact V|]. split; [split; [destruct d; reflexivity|exact V2]|].
    destruct d; split; reflexivity.
  - cbn [show_attr]. destruct d; [rewrite (two_shown _ _ _ _ N Q N2 Q2)|rewrite (two_shown _ _ _ _ N2 Q2 N Q)]; reflexivity.
  - unfold rfc_simulcast. cbn [alt]. apply gen_or_right, gen_or_right, gen_or_left.
    destruct d; [parts [lit "send "; t; lit " recv "; u]|parts [lit "send "; u; lit " recv "; t]]; assumption || flat.
Qed.
Lemma a_simulcast : again_of ("simulcast"%string, rfc_simulcast).
Proof.
  starting. apply g_inv_alt in H. destruct H as [r [M H]]. cbn [In] in M.
  destruct M as [<-|[<-|[<-|[<-|[]]]]].
  - apply g_inv_cat in H. destruct H as [x [y [-> [H K]]]]. apply g_inv_lit in H. subst x.
    same (of_string (single_direction_name Send) ++ leads 32 [y]). apply simulcast_one_same, K.
  - apply g_inv_cat in H. destruct H as [x [y [-> [H K]]]]. apply g_inv_lit in H. subst x.
    same (of_string (single_direction_name Recv) ++ leads 32 [y]). apply simulcast_one_same, K.
  - pieces H. same (of_string (single_direction_name Send) ++ leads 32 [x0; of_string (single_direction_name (other Send)); x2]).
    apply simulcast_two_same; assumption.
  - pieces H. same (of_string (single_direction_name Recv) ++ leads 32 [x0; of_string (single_direction_name (other Recv)); x2]).
    apply simulcast_two_same; assumption.
Qed.
End WithExt.

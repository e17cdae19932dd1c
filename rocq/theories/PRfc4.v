(** * The lines of the RFCs are accepted (C62): candidate, simulcast, rid *)
From Coq Require Import List Arith NArith ZArith Lia Bool Ascii String.
From Coq Require Import ZifyBool ZifyNat ZifyN.
From Verif Require Import Str Num Net Types Ext Show Address AttrParse Media Session SpecApi SpecDoc SpecVal SpecItems
  SpecPrint SpecIp SpecGrammar.
From Verif Require Import StrLemmas NumLemmas NetLemmas PVal PVal2 PVal8 PVal9 PVal10 PVal11 PPrint PPrint2 PPrint3 PPrint4
  PPrint9 PPrint11 PIp PIp2.
From Verif Require Import SpecRfc PRfc PRfc2 PRfc3.
Import ListNotations.
Open Scope N_scope.
Open Scope list_scope.

Lemma lower_test : forall name, lower_word (of_string name) = true -> forall n, means n name <-> str_eqb (to_lower n) (of_string name) = true.
Proof. intros name L n. rewrite str_eqb_eq. apply means_iff, L. Qed.
Lemma upper_test : forall name, upper_word (of_string name) = true -> forall n, means_upper n name <-> str_eqb (to_upper n) (of_string name) = true.
Proof. intros name L n. rewrite str_eqb_eq. apply means_upper_iff, L. Qed.

Section WithExt.
Context {E : Ext}.
(** ** candidate *)
(** What is needed of the values of the known names. *)
Definition good_ext (nv : str * str) : Prop :=
  word (fst nv) /\ word (snd nv) /\
  (means (fst nv) "generation" -> exists y, numeral u32_max (snd nv) y) /\
  (means (fst nv) "network-cost" -> exists y, numeral u32_max (snd nv) y) /\
  (means (fst nv) "raddr" -> exists y, reads_address (snd nv) y) /\
  (means (fst nv) "rport" -> exists y, numeral 65535 (snd nv) y) /\
  (means (fst nv) "tcptype" -> exists y, means (snd nv) (tcp_type_name y)) /\
  (means (fst nv) "ufrag" -> exists y, y = snd nv).
Definition ext_words (ps : list (str * str)) : list str := flat_map (fun nv => [fst nv; snd nv]) ps.
Lemma ext_words_ok : forall ps, Forall good_ext ps -> Forall word (ext_words ps).
Proof.
  intros ps F. induction F as [|[n v] ps (W1 & W2 & _) F IH]; [constructor|].
  cbn [ext_words flat_map]. fa; [exact W1|exact W2|exact IH].
Qed.
Lemma candidate_read : forall found comp trans tr prio addr a port typ ty k ps,
  word found -> word comp -> numeral u32_max comp (dec_value comp) -> word trans -> means trans (transport_name tr) ->
  word prio -> numeral u64_max prio (dec_value prio) -> word addr -> reads_address addr a -> word port ->
  numeral 65535 port (dec_value port) -> word typ -> means typ "typ" -> word ty -> means ty (cand_type_name k) ->
  Forall good_ext ps ->
  read_as "candidate" (found ++ leads 32 (comp :: trans :: prio :: addr :: port :: typ :: ty :: ext_words ps)).
Proof.
  intros found comp trans tr prio addr a port typ ty k ps H1 H2 H3 H4 H5 H6 H7 H8 H9 H10 H11 H12 H13 H14 H15 F.
  pose proof (ext_words_ok ps F) as FW.
  assert (K : forall {A} name (reads : str -> A -> Prop), lower_word (of_string name) = true ->
    Forall (fun nv => means (fst nv) name -> exists y, reads (snd nv) y) ps ->
    exists x, option_field (fun n => means n name) ps reads x).
  { intros A name reads L G. apply (option_exists _ _ reads ps (lower_test name L) G). }
  unfold good_ext in F.
  destruct (K N "generation"%string (numeral u32_max) eq_refl) as [x1 X1]; [eapply Forall_impl; [|exact F]; cbv beta; tauto|].
  destruct (K N "network-cost"%string (numeral u32_max) eq_refl) as [x2 X2]; [eapply Forall_impl; [|exact F]; cbv beta; tauto|].
  destruct (K address "raddr"%string reads_address eq_refl) as [x3 X3]; [eapply Forall_impl; [|exact F]; cbv beta; tauto|].
  destruct (K N "rport"%string (numeral 65535) eq_refl) as [x4 X4]; [eapply Forall_impl; [|exact F]; cbv beta; tauto|].
  destruct (K tcp_type_t "tcptype"%string (fun s t => means s (tcp_type_name t)) eq_refl) as [x5 X5]; [eapply Forall_impl; [|exact F]; cbv beta; tauto|].
  destruct (K str "ufrag"%string (fun s x => x = s) eq_refl) as [x6 X6]; [eapply Forall_impl; [|exact F]; cbv beta; tauto|].
  destruct (others_exists (fun n => Exists (means n) extension_names) _ ps (fun n => exists_means extension_names n eq_refl)) as [us U].
  apply (read_solid _ (ACandidate {| foundation := found; component := dec_value comp; transport := tr; priority := dec_value prio;
    cand_address := a; cand_port := dec_value port; c_type := k; raddr := x3; rport := x4; tcp_type := x5; generation := x1;
    ufrag := x6; networkcost := x2; unknown_extensions := us |})); [apply ends_leads; fa; assumption|exact I|].
  exists found, comp, trans, prio, addr, port, typ, ty, (ext_words ps), ps.
  split; [apply words_leads; fa; assumption|].
  cbn [foundation component transport priority cand_address cand_port c_type raddr rport tcp_type generation ufrag networkcost
    unknown_extensions].
  split; [reflexivity|]. split; [exact H3|]. split; [exact H5|]. split; [exact H7|]. split; [exact H9|]. split; [exact H11|].
  split; [exact H13|]. split; [exact H15|]. split; [apply in_pairs_flat|]. auto 10.
Qed.
Hypothesis OK : ext_ok E.
(** A pair of a known name is not a pair of another. *)
Ltac other_name R := let K := fresh in intro K; exfalso;
  apply means_iff in K; [|reflexivity]; apply means_iff in R; [|reflexivity]; rewrite R in K; discriminate K.
Lemma g_extension : forall t, gen extension t -> exists n v, t = n ++ 32 :: v /\ good_ext (n, v).
Proof.
  intros t H. apply g_inv_alt in H. destruct H as [r [M H]]. cbn [In] in M.
  destruct M as [<-|[<-|[<-|[<-|[<-|[]]]]]]; pieces H; (exists x, x1);
    (split; [cbn [List.concat app]; rewrite app_nil_r; reflexivity|]); unfold good_ext; cbn [fst snd].
  - apply g_inv_nocase in G. pose proof (recased_is_word _ _ G eq_refl) as W. apply recased_means in G.
    apply g_inv_nocases in G1. destruct G1 as [w [M R]].
    assert (K : exists y, tcp_type_name y = w).
    { cbn in M. destruct M as [<-|[<-|[<-|[]]]]; [exists TcpActive|exists TcpPassive|exists TcpSimultaneous]; reflexivity. }
    destruct K as [y <-].
    assert (V : word x1) by (apply (recased_is_word _ _ R); destruct y; reflexivity).
    split; [exact W|]. split; [exact V|]. split; [other_name G|]. split; [other_name G|]. split; [other_name G|].
    split; [other_name G|]. split; [|other_name G]. intros _. exists y. apply recased_means, R.
  - apply g_inv_nocase in G. pose proof (recased_is_word _ _ G eq_refl) as W. apply recased_means in G.
    apply g_at_most in G1. destruct G1 as (V & _ & U). split; [exact W|]. split; [exact V|].
    split; [eauto|]. split; [other_name G|]. split; [other_name G|]. split; [other_name G|]. split; other_name G.
  - apply g_inv_nocase in G. pose proof (recased_is_word _ _ G eq_refl) as W. apply recased_means in G.
    apply g_at_most in G1. destruct G1 as (V & _ & U). split; [exact W|]. split; [exact V|].
    split; [other_name G|]. split; [eauto|]. split; [other_name G|]. split; [other_name G|]. split; other_name G.
  - apply g_inv_nocase in G. pose proof (recased_is_word _ _ G eq_refl) as W. apply recased_means in G.
    apply g_row in G1; [|lia]. split; [exact W|]. split; [exact (class_word _ _ ice_solid (proj1 G1) (proj1 (proj2 G1)))|].
    split; [other_name G|]. split; [other_name G|]. split; [other_name G|]. split; [other_name G|]. split; [other_name G|eauto].
  - apply g_inv_such in G. destruct G as [G D]. change (~ Exists (means x) extension_names) in D. rewrite Exists_exists in D.
    split; [apply token_word, G|]. split; [apply vchars_word, G1|].
    split; [|split; [|split; [|split; [|split]]]]; intro K; exfalso; apply D;
      [exists "generation"%string|exists "network-cost"%string|exists "raddr"%string|exists "rport"%string|exists "tcptype"%string|exists "ufrag"%string];
      (split; [cbn; tauto|exact K]).
Qed.
Lemma r_candidate : names_of ("candidate"%string, rfc_candidate).
Proof.
  start. pieces H.
  apply g_row in G; [|lia]. pose proof (class_word _ _ ice_solid (proj1 G) (proj1 (proj2 G))) as W.
  apply (g_digits _ _ u32_max) in G1; [|lia|vm_compute; discriminate]. destruct G1 as (W1 & _ & U1).
  apply g_inv_nocases in G3. destruct G3 as [w [M R]].
  assert (K : exists tr, means x3 (transport_name tr) /\ word x3).
  { cbn in M. destruct M as [<-|[<-|[]]]; [exists Udp|exists Tcp];
      (split; [apply (recased_to _ _ _ R); reflexivity|apply (recased_is_word _ _ R); reflexivity]). }
  destruct K as (tr & T & W3). clear w M R.
  apply (g_digits _ _ u64_max) in G5; [|lia|vm_compute; discriminate]. destruct G5 as (W5 & _ & U5).
  apply (g_address OK) in G7. destruct G7 as (W7 & _ & a & A).
  apply g_at_most in G9. destruct G9 as (W9 & _ & U9).
  apply g_inv_nocase in G11. pose proof (recased_is_word _ _ G11 eq_refl) as W11. apply recased_means in G11.
  apply g_inv_nocases in G13. destruct G13 as [w [M R]].
  assert (K : exists k, means x13 (cand_type_name k) /\ word x13).
  { cbn in M. destruct M as [<-|[<-|[<-|[<-|[]]]]]; [exists Host|exists Srflx|exists Prflx|exists Relay];
      (split; [apply (recased_to _ _ _ R); reflexivity|apply (recased_is_word _ _ R); reflexivity]). }
  destruct K as (k & T2 & W13). clear w M R.
  assert (P1 : exists ps, x14 = leads 32 (ext_words ps) /\ Forall good_ext ps).
  { apply g_inv_opt in G14. destruct G14 as [->|H]; [exists []; split; [reflexivity|constructor]|]. clear -H OK. pieces H.
    apply g_inv_nocase in G0. pose proof (recased_is_word _ _ G0 eq_refl) as V. apply recased_means in G0.
    apply (g_address OK) in G2. destruct G2 as (V2 & _ & A). exists [(x0, x2)].
    split; [cbn [List.concat ext_words flat_map leads app fst snd]; rewrite ?app_nil_r; reflexivity|]. fa. unfold good_ext. cbn [fst snd].
    split; [exact V|]. split; [exact V2|]. split; [other_name G0|]. split; [other_name G0|]. split; [intros _; exact A|].
    split; [other_name G0|]. split; other_name G0. }
  assert (P2 : exists ps, x15 = leads 32 (ext_words ps) /\ Forall good_ext ps).
  { apply g_inv_opt in G15. destruct G15 as [->|H]; [exists []; split; [reflexivity|constructor]|]. clear -H OK. pieces H.
    apply g_inv_nocase in G0. pose proof (recased_is_word _ _ G0 eq_refl) as V. apply recased_means in G0.
    apply g_at_most in G2. destruct G2 as (V2 & _ & U). exists [(x0, x2)].
    split; [cbn [List.concat ext_words flat_map leads app fst snd]; rewrite ?app_nil_r; reflexivity|]. fa. unfold good_ext. cbn [fst snd].
    split; [exact V|]. split; [exact V2|]. split; [other_name G0|]. split; [other_name G0|]. split; [other_name G0|].
    split; [eauto|]. split; other_name G0. }
  assert (P3 : exists ps, x16 = leads 32 (ext_words ps) /\ Forall good_ext ps).
  { apply (g_inv_leads 32) in G16; [|reflexivity]. destruct G16 as [l [F ->]]. clear -F.
    induction F as [|t l H F [ps [IH1 IH2]]]; [exists []; split; [reflexivity|constructor]|].
    apply g_extension in H. destruct H as (n & v & -> & G). exists ((n, v) :: ps). split; [|constructor; assumption].
    cbn [ext_words flat_map leads fst snd app]. cbn [leads flat_map] in IH1. unfold leads, ext_words in IH1 |- *. rewrite IH1.
    repeat (rewrite <- app_assoc; cbn [app]). reflexivity. }
  destruct P1 as (p1 & -> & F1), P2 as (p2 & -> & F2), P3 as (p3 & -> & F3).
  match goal with |- read_as _ ?t => replace t with
    (x ++ leads 32 (x1 :: x3 :: x5 :: x7 :: x9 :: x11 :: x13 :: ext_words (p1 ++ p2 ++ p3))) end.
  - eapply candidate_read; eauto. fa; assumption.
  - unfold ext_words. rewrite !flat_map_app. cbn [List.concat leads flat_map app]. rewrite !flat_map_app, app_nil_r.
    repeat (rewrite <- app_assoc; cbn [app]). reflexivity.
Qed.

(** ** simulcast *)
Lemma g_rid : forall t, gen rid_identifier t -> word t /\ Forall rid_char t.
Proof.
  intros t H. apply g_inv_many1_chr in H. split; [exact (class_word _ _ rid_solid (proj1 H) (proj2 H))|apply H].
Qed.
Definition stream_char (c : N) : Prop := rid_char c \/ c = 126 \/ c = 44 \/ c = 59.
Lemma stream_solid : forall c, stream_char c -> is_ws c = false.
Proof. intros c [H|H]; [apply rid_solid, H|]. apply vchar_solid. unfold vchar. lia. Qed.
Lemma g_sim_id : forall t, gen (Cat (opt (Lit "~")) rid_identifier) t -> t <> [] /\ Forall (fun c => rid_char c \/ c = 126) t /\
  exists i, simulcast_id_value t i.
Proof.
  intros t H. apply g_inv_cat in H. destruct H as [x [y [-> [H K]]]]. apply g_rid in K. destruct K as [[N _] F].
  assert (FY : Forall (fun c => rid_char c \/ c = 126) y) by (eapply Forall_impl; [|exact F]; cbv beta; tauto).
  apply g_inv_opt in H. destruct H as [->|H].
  - cbn [app]. split; [exact N|]. split; [exact FY|]. exists {| sid_id := y; sid_paused := false |}. cbn.
    split; [reflexivity|]. intros z ->. inversion F as [|? ? C _]; subst. unfold rid_char, alpha_num in C. lia.
  - apply g_inv_lit in H. subst x. split; [discriminate|]. split; [constructor; [right; reflexivity|exact FY]|].
    exists {| sid_id := y; sid_paused := true |}. reflexivity.
Qed.
Lemma leads_class : forall (P : N -> Prop) c l, P c -> Forall (Forall P) l -> Forall P (leads c l).
Proof.
  intros P c l C F. induction F as [|t l H F IH]; [constructor|]. cbn [leads flat_map]. apply Forall_app.
  split; [constructor; assumption|exact IH].
Qed.
Lemma forall2_exists : forall {A B} (R : A -> B -> Prop) l, Forall (fun x => exists y, R x y) l -> exists m, Forall2 R l m.
Proof.
  intros A B R l F. induction F as [|x l [y H] F [m IH]]; [exists []; constructor|]. exists (y :: m). constructor; assumption.
Qed.
Lemma g_version : forall t, gen (list_of "," (Cat (opt (Lit "~")) rid_identifier)) t ->
  t <> [] /\ Forall (fun c => rid_char c \/ c = 126 \/ c = 44) t /\ exists v, simulcast_version_value t v.
Proof.
  intros t H. apply (g_inv_list 44) in H; [|reflexivity]. destruct H as [x [l [F ->]]].
  assert (FC : Forall (Forall (fun c => rid_char c \/ c = 126 \/ c = 44)) (x :: l)).
  { eapply Forall_impl; [|exact F]. intros t T. eapply Forall_impl; [|apply (g_sim_id t T)]. cbv beta. tauto. }
  assert (FS : Forall (fun t => ~ In 44 t) (x :: l)).
  { eapply Forall_impl; [|exact F]. intros t T. apply (class_no _ _ _ (proj1 (proj2 (g_sim_id t T)))).
    unfold rid_char, alpha_num. lia. }
  assert (FV : Forall (fun t => exists i, simulcast_id_value t i) (x :: l)).
  { eapply Forall_impl; [|exact F]. intros t T. apply (g_sim_id t T). }
  split; [|split].
  - inversion F as [|? ? H F']; subst. apply g_sim_id in H. destruct H as [N _]. destruct x; [congruence|discriminate].
  - inversion FC; subst. apply Forall_app. split; [assumption|]. apply leads_class; [tauto|assumption].
  - apply forall2_exists in FV. destruct FV as [m FV]. exists m, (x :: l). split; [|exact FV].
    inversion FS; subst. apply fields_leads; assumption.
Qed.
Lemma g_streams : forall t, gen stream_list t -> word t /\ exists l, simulcast_list_value t l.
Proof.
  intros t H. apply (g_inv_list 59) in H; [|reflexivity]. destruct H as [x [l [F ->]]].
  assert (FC : Forall (Forall stream_char) (x :: l)).
  { eapply Forall_impl; [|exact F]. intros t T. eapply Forall_impl; [|apply (g_version t T)]. cbv beta. unfold stream_char. tauto. }
  assert (FS : Forall (fun t => ~ In 59 t) (x :: l)).
  { eapply Forall_impl; [|exact F]. intros t T. apply (class_no _ _ _ (proj1 (proj2 (g_version t T)))).
    unfold rid_char, alpha_num. lia. }
  assert (FV : Forall (fun t => exists i, simulcast_version_value t i) (x :: l)).
  { eapply Forall_impl; [|exact F]. intros t T. apply (g_version t T). }
  assert (A : Forall stream_char (x ++ leads 59 l)).
  { inversion FC; subst. apply Forall_app. split; [assumption|]. apply leads_class; [unfold stream_char; tauto|assumption]. }
  split.
  - apply (class_word _ _ stream_solid); [|exact A]. inversion F as [|? ? H F']; subst. apply g_version in H.
    destruct H as [N _]. destruct x; [congruence|discriminate].
  - apply forall2_exists in FV. destruct FV as [m FV]. exists m, (x ++ leads 59 l), (x :: l). split.
    + right. split; [|reflexivity]. apply (class_no _ _ _ A). unfold stream_char, rid_char, alpha_num. lia.
    + split; [|exact FV]. inversion FS; subst. apply fields_leads; assumption.
Qed.
Definition other (d : single_direction) : single_direction := match d with Send => Recv | Recv => Send end.
Lemma simulcast_one : forall d t, gen stream_list t -> read_as "simulcast" (of_string (single_direction_name d) ++ leads 32 [t]).
Proof.
  intros d t H. apply g_streams in H. destruct H as (W & l & V).
  assert (WD : word (of_string (single_direction_name d))) by (destruct d; apply word_b; reflexivity).
  apply (read_solid _ (ASimulcast match d with Send => {| sim_send := l; sim_receive := [] |} | Recv => {| sim_send := []; sim_receive := l |} end));
    [apply ends_leads; fa; assumption|exact I|].
  exists (of_string (single_direction_name d)), t, []. split; [apply words_leads; fa; assumption|].
  exists d, l, []. split; [reflexivity|]. split; [exact V|]. split; [reflexivity|]. destruct d; split; reflexivity.
Qed.
Lemma simulcast_two : forall d t u, gen stream_list t -> gen stream_list u ->
  read_as "simulcast" (of_string (single_direction_name d) ++ leads 32 [t; of_string (single_direction_name (other d)); u]).
Proof.
  intros d t u H K. apply g_streams in H, K. destruct H as (W & l & V), K as (W2 & l2 & V2).
  assert (WD : forall d, word (of_string (single_direction_name d))) by (intros []; apply word_b; reflexivity).
  apply (read_solid _ (ASimulcast match d with Send => {| sim_send := l; sim_receive := l2 |} | Recv => {| sim_send := l2; sim_receive := l |} end));
    [apply ends_leads; fa; auto|exact I|].
  exists (of_string (single_direction_name d)), t, [of_string (single_direction_name (other d)); u].
  split; [apply words_leads; fa; auto|].
  exists d, l, l2. split; [reflexivity|]. split; [exact V|]. split; [split; [destruct d; reflexivity|exact V2]|].
  destruct d; split; reflexivity.
Qed.
Lemma r_simulcast : names_of ("simulcast"%string, rfc_simulcast).
Proof.
  start. apply g_inv_alt in H. destruct H as [r [M H]]. cbn [In] in M.
  destruct M as [<-|[<-|[<-|[<-|[]]]]].
  - apply g_inv_cat in H. destruct H as [x [y [-> [H K]]]]. apply g_inv_lit in H. subst x.
    text (of_string (single_direction_name Send) ++ leads 32 [y]). apply simulcast_one, K.
  - apply g_inv_cat in H. destruct H as [x [y [-> [H K]]]]. apply g_inv_lit in H. subst x.
    text (of_string (single_direction_name Recv) ++ leads 32 [y]). apply simulcast_one, K.
  - pieces H. text (of_string (single_direction_name Send) ++ leads 32 [x0; of_string (single_direction_name (other Send)); x2]).
    apply simulcast_two; assumption.
  - pieces H. text (of_string (single_direction_name Recv) ++ leads 32 [x0; of_string (single_direction_name (other Recv)); x2]).
    apply simulcast_two; assumption.
Qed.
End WithExt.

(** * Lines of the RFCs are printed as lines of the RFCs (C80): candidates and rids *)
From Coq Require Import List Arith NArith ZArith Lia Bool Ascii String.
From Coq Require Import ZifyBool ZifyNat ZifyN.
From Verif Require Import Str Num Net Types Ext Show Address AttrParse Media Session SpecApi SpecDoc SpecVal SpecItems
  SpecPrint SpecIp SpecGrammar.
From Verif Require Import StrLemmas NumLemmas NetLemmas PVal PVal2 PVal6 PVal8 PVal9 PVal10 PVal11 PPrint PPrint2 PPrint3 PPrint4
  PPrint9 PPrint11 PIp PIp2 PDoc3 PExt0 PSettle.
From Verif Require Import SpecRfc PRfc PRfc2 PRfc3 PRfc4 PRfc5 PRfc9 PRfc16 PRfc17 PRfc18 PRfc19.
Import ListNotations.
Open Scope N_scope.
Open Scope list_scope.

Lemma many_app : forall a s t, gen (Many a) s -> gen (Many a) t -> gen (Many a) (s ++ t).
Proof.
  intros a s t H K. apply g_inv_many in H. destruct H as [l [F ->]]. induction F as [|x l X F IH]; [exact K|].
  cbn [List.concat]. rewrite <- app_assoc. constructor; assumption.
Qed.
Lemma many_one : forall a t, gen a t -> gen (Many a) t.
Proof. intros a t H. rewrite <- (app_nil_r t). constructor; [exact H|constructor]. Qed.
(** The value of a field comes from one of the pairs. *)
Lemma given_in : forall is ps vs, given is ps vs -> forall v, In v vs -> exists n, In (n, v) ps /\ is n.
Proof.
  intros is ps vs G. induction G as [|n v ps vs K G IH|n v ps vs K G IH]; intros w M.
  - destruct M.
  - destruct M as [<-|M]; [exists n; split; [left; reflexivity|exact K]|]. destruct (IH w M) as [m [A B]]. exists m. split; [right; exact A|exact B].
  - destruct (IH w M) as [m [A B]]. exists m. split; [right; exact A|exact B].
Qed.
Lemma last_in : forall (l : list str) x, last_of l = Some x -> In x l.
Proof. intros l x. apply PVal4.last_of_In. Qed.
Lemma field_from : forall {A} is ps (reads : str -> A -> Prop) none x, field_of is ps reads none x ->
  x = none \/ exists n v, In (n, v) ps /\ is n /\ reads v x.
Proof.
  intros A is ps reads none x (vs & G & _ & L). destruct (last_of vs) as [v|] eqn:Q; [|left; exact L]. right.
  apply last_in in Q. destruct (given_in _ _ _ G _ Q) as [n [M I]]. exists n, v. auto.
Qed.
Lemma option_from : forall {A} is ps (reads : str -> A -> Prop) x, option_field is ps reads (Some x) ->
  exists n v, In (n, v) ps /\ is n /\ reads v x.
Proof.
  intros A is ps reads x F. apply field_from in F. destruct F as [F|(n & v & M & I & y & Q & R)]; [discriminate F|].
  injection Q as <-. exists n, v. auto.
Qed.
Lemma others_from : forall known ps us, others known ps us -> forall nv, In nv us -> In nv ps /\ ~ known (fst nv).
Proof.
  intros known ps us U. induction U as [|n v ps us K U IH|n v ps us K U IH]; intros nv M.
  - destruct M.
  - destruct M as [<-|M]; [split; [left; reflexivity|exact K]|]. destruct (IH nv M) as [A B]. split; [right; exact A|exact B].
  - destruct (IH nv M) as [A B]. split; [right; exact A|exact B].
Qed.
Lemma numeral_most : forall max t n, numeral max t n -> n <= max.
Proof. intros max t n (ds & _ & _ & _ & _ & H). exact H. Qed.

Section WithExt.
Context {E : Ext}.
Hypothesis OK : ext_ok E.
(** ** candidate *)
Definition out_ext (nv : str * str) : Prop :=
  (means (fst nv) "ufrag" -> gen (row 4 256 ice_char) (snd nv)) /\
  (~ Exists (means (fst nv)) extension_names -> gen token (fst nv) /\ gen vchars (snd nv)).
Ltac other_name R := let K := fresh in intro K; exfalso;
  apply means_iff in K; [|reflexivity]; apply means_iff in R; [|reflexivity]; rewrite R in K; discriminate K.
Lemma known_out : forall n v name, means n name -> In name extension_names -> name <> "ufrag"%string ->
  lower_word (of_string name) = true -> out_ext (n, v).
Proof.
  intros n v name M K D L. split; cbn [fst snd].
  - intro U. exfalso. apply means_iff in U; [|reflexivity]. apply means_iff in M; [|exact L]. rewrite M in U.
    unfold extension_names in K. cbn [In] in K. repeat (destruct K as [<-|K]; [congruence || discriminate U|]). destruct K.
  - intro N. exfalso. apply N, Exists_exists. exists name. auto.
Qed.
Lemma extension_out : forall t, gen extension t -> exists n v, t = n ++ 32 :: v /\ good_ext (n, v) /\ out_ext (n, v).
Proof.
  intros t H. apply g_inv_alt in H. destruct H as [r [M H]]. cbn [In] in M.
  destruct M as [<-|[<-|[<-|[<-|[<-|[]]]]]]; pieces H; (exists x, x1);
    (split; [cbn [List.concat app]; rewrite app_nil_r; reflexivity|]).
  - apply g_inv_nocase in G. pose proof (recased_is_word _ _ G eq_refl) as W. apply recased_means in G.
    split; [|apply (known_out _ _ _ G); [cbn; tauto|discriminate|reflexivity]]. unfold good_ext; cbn [fst snd].
    apply g_inv_nocases in G1. destruct G1 as [w [M R]].
    assert (K : exists y, tcp_type_name y = w).
    { cbn in M. destruct M as [<-|[<-|[<-|[]]]]; [exists TcpActive|exists TcpPassive|exists TcpSimultaneous]; reflexivity. }
    destruct K as [y <-].
    assert (V : word x1) by (apply (recased_is_word _ _ R); destruct y; reflexivity).
    split; [exact W|]. split; [exact V|]. split; [other_name G|]. split; [other_name G|]. split; [other_name G|].
    split; [other_name G|]. split; [|other_name G]. intros _. exists y. apply recased_means, R.
  - apply g_inv_nocase in G. pose proof (recased_is_word _ _ G eq_refl) as W. apply recased_means in G.
    split; [|apply (known_out _ _ _ G); [cbn; tauto|discriminate|reflexivity]]. unfold good_ext; cbn [fst snd].
    apply PRfc.g_at_most in G1. destruct G1 as (V & _ & U). split; [exact W|]. split; [exact V|].
    split; [eauto|]. split; [other_name G|]. split; [other_name G|]. split; [other_name G|]. split; other_name G.
  - apply g_inv_nocase in G. pose proof (recased_is_word _ _ G eq_refl) as W. apply recased_means in G.
    split; [|apply (known_out _ _ _ G); [cbn; tauto|discriminate|reflexivity]]. unfold good_ext; cbn [fst snd].
    apply PRfc.g_at_most in G1. destruct G1 as (V & _ & U). split; [exact W|]. split; [exact V|].
    split; [other_name G|]. split; [eauto|]. split; [other_name G|]. split; [other_name G|]. split; other_name G.
  - apply g_inv_nocase in G. pose proof (recased_is_word _ _ G eq_refl) as W. apply recased_means in G.
    split; [unfold good_ext; cbn [fst snd]|].
    + apply PRfc.g_row in G1; [|lia]. split; [exact W|]. split; [exact (class_word _ _ ice_solid (proj1 G1) (proj1 (proj2 G1)))|].
      split; [other_name G|]. split; [other_name G|]. split; [other_name G|]. split; [other_name G|]. split; [other_name G|eauto].
    + split; cbn [fst snd]; [intros _; exact G1|]. intro N. exfalso. apply N, Exists_exists. exists "ufrag"%string. split; [cbn; tauto|exact G].
  - apply g_inv_such in G. destruct G as [G D]. change (~ Exists (means x) extension_names) in D. pose proof D as D'. rewrite Exists_exists in D.
    split; [unfold good_ext; cbn [fst snd]|].
    + split; [apply token_word, G|]. split; [apply vchars_word, G1|].
      split; [|split; [|split; [|split; [|split]]]]; intro K; exfalso; apply D;
        [exists "generation"%string|exists "network-cost"%string|exists "raddr"%string|exists "rport"%string|exists "tcptype"%string|exists "ufrag"%string];
        (split; [cbn; tauto|exact K]).
    + split; cbn [fst snd]; [|intros _; split; assumption]. intro K. exfalso. apply D. exists "ufrag"%string. split; [cbn; tauto|exact K].
Qed.
Definition printed_extensions (c : candidate) : str :=
  show_opt (lit " tcptype ") show_tcp_type [] (tcp_type c) ++
  show_opt (lit " generation ") show_N [] (generation c) ++
  show_opt (lit " ufrag ") (fun s => s) [] (ufrag c) ++
  show_opt (lit " network-cost ") show_N [] (networkcost c) ++
  flat_map (fun nv => sp ++ fst nv ++ sp ++ snd nv) (unknown_extensions c).
Lemma spaced_extension : forall t, gen extension t -> gen (Many (Cat (Lit " ") extension)) (32 :: t).
Proof. intros t H. apply many_one. apply (gen_cat _ _ (lit " ")); [apply gen_lit|exact H]. Qed.
Lemma nth_extension : forall r t, In r [cats [nocase "tcptype"; Lit " "; nocases ["active"; "passive"; "so"]%string];
        cats [nocase "generation"; Lit " "; at_most u32_max];
        cats [nocase "network-cost"; Lit " "; at_most u32_max];
        cats [nocase "ufrag"; Lit " "; row 4 256 ice_char];
        cats [Such token (SpecGrammar.not_named extension_names); Lit " "; vchars] ] -> gen r t -> gen extension t.
Proof. intros r t M G. exact (g_alt_in _ _ _ _ M G). Qed.
Lemma extensions_printed : forall c ps, Forall out_ext ps ->
  option_field (fun n => means n "generation") ps (numeral u32_max) (generation c) ->
  option_field (fun n => means n "network-cost") ps (numeral u32_max) (networkcost c) ->
  option_field (fun n => means n "ufrag") ps (fun s x => x = s) (ufrag c) ->
  others (fun n => Exists (means n) extension_names) ps (unknown_extensions c) ->
  gen (Many (Cat (Lit " ") extension)) (printed_extensions c).
Proof.
  intros c ps F G1 G2 G3 U. unfold printed_extensions. rewrite Forall_forall in F.
  apply many_app; [|apply many_app; [|apply many_app; [|apply many_app]]].
  - destruct (tcp_type c) as [y|]; [|constructor]. cbn [show_opt]. rewrite app_nil_r. apply (spaced_extension (lit "tcptype " ++ show_tcp_type y)).
    eapply nth_extension; [left; reflexivity|].
    replace (show_tcp_type y) with (of_string (tcp_type_name y)) by (destruct y; reflexivity).
    parts [of_string "tcptype"; lit " "; of_string (tcp_type_name y)]; [apply g_nocase_itself| |flat]. apply g_nocases_in. destruct y; cbn; tauto.
  - destruct (generation c) as [y|]; [|constructor]. cbn [show_opt]. rewrite app_nil_r. apply (spaced_extension (lit "generation " ++ show_N y)).
    eapply nth_extension; [right; left; reflexivity|].
    apply option_from in G1. destruct G1 as (n & v & _ & _ & R). apply numeral_most in R.
    parts [of_string "generation"; lit " "; show_N y]; [apply g_nocase_itself|apply g_number, R|flat].
  - destruct (ufrag c) as [y|]; [|constructor]. cbn [show_opt]. rewrite app_nil_r. apply (spaced_extension (lit "ufrag " ++ y)).
    eapply nth_extension; [do 3 right; left; reflexivity|].
    apply option_from in G3. destruct G3 as (n & v & M & I & R). subst y. destruct (F _ M) as [O _].
    parts [of_string "ufrag"; lit " "; v]; [apply g_nocase_itself|exact (O I)|flat].
  - destruct (networkcost c) as [y|]; [|constructor]. cbn [show_opt]. rewrite app_nil_r. apply (spaced_extension (lit "network-cost " ++ show_N y)).
    eapply nth_extension; [do 2 right; left; reflexivity|].
    apply option_from in G2. destruct G2 as (n & v & _ & _ & R). apply numeral_most in R.
    parts [of_string "network-cost"; lit " "; show_N y]; [apply g_nocase_itself|apply g_number, R|flat].
  - pose proof (others_from _ _ _ U) as M. clear U. induction (unknown_extensions c) as [|[n v] us IH]; [constructor|].
    cbn [flat_map]. apply many_app; [|apply IH; intros nv K; apply M; right; exact K].
    destruct (M (n, v) (or_introl eq_refl)) as [K1 K2]. destruct (F _ K1) as [_ O]. cbn [fst snd] in *. destruct (O K2) as [T V].
    apply (spaced_extension (n ++ sp ++ v)). eapply nth_extension; [do 4 right; left; reflexivity|].
    parts [n; lit " "; v]; [apply gen_such; [exact T|exact K2]|exact V|flat].
Qed.
(** What a candidate that was written so is made of. *)
Record candidate_out (c : candidate) : Prop := {
  co_foundation : gen (row 1 32 ice_char) (foundation c);
  co_component : gen (row 1 3 (fun c => 48 <= c <= 57)) (show_N (component c));
  co_priority : gen (row 1 10 (fun c => 48 <= c <= 57)) (show_N (priority c));
  co_address : gen address_rule (show_address (cand_address c));
  co_port : cand_port c <= 65535;
  co_raddr : match raddr c with Some a => gen address_rule (show_address a) | None => True end;
  co_rport : match rport c with Some p => p <= 65535 | None => True end;
  co_extensions : gen (Many (Cat (Lit " ") extension)) (printed_extensions c) }.
Lemma candidate_printed : forall c, candidate_out c -> gen rfc_candidate (show_candidate c).
Proof.
  intros c [O1 O2 O3 O4 O5 O6 O7 O8].
  assert (GR : gen (opt (cats [Lit " "; nocase "raddr"; Lit " "; address_rule])) (show_opt (lit " raddr ") show_address [] (raddr c))).
  { destruct (raddr c) as [y|]; [|apply g_none]. cbn [show_opt]. rewrite app_nil_r. apply g_opt.
    parts [lit " "; of_string "raddr"; lit " "; show_address y]; [apply g_nocase_itself|exact O6|flat]. }
  assert (GO : gen (opt (cats [Lit " "; nocase "rport"; Lit " "; SpecRfc.port])) (show_opt (lit " rport ") show_N [] (rport c))).
  { destruct (rport c) as [y|]; [|apply g_none]. cbn [show_opt]. rewrite app_nil_r. apply g_opt.
    parts [lit " "; of_string "rport"; lit " "; show_N y]; [apply g_nocase_itself|apply g_number, O7|flat]. }
  parts [foundation c; lit " "; show_N (component c); lit " "; show_transport (transport c); lit " "; show_N (priority c); lit " ";
    show_address (cand_address c); lit " "; show_N (cand_port c); lit " "; of_string "typ"; lit " "; show_cand_type (c_type c);
    show_opt (lit " raddr ") show_address [] (raddr c); show_opt (lit " rport ") show_N [] (rport c); printed_extensions c].
  - exact O1.
  - exact O2.
  - replace (show_transport (transport c)) with (of_string match transport c with Udp => "UDP" | Tcp => "TCP" end) by (destruct (transport c); reflexivity).
    apply g_nocases_in. destruct (transport c); cbn; tauto.
  - exact O3.
  - exact O4.
  - apply g_number. exact O5.
  - apply g_nocase_itself.
  - replace (show_cand_type (c_type c)) with (of_string (cand_type_name (c_type c))) by (destruct (c_type c); reflexivity).
    apply g_nocases_in. destruct (c_type c); cbn; tauto.
  - exact GR.
  - exact GO.
  - exact O8.
  - unfold show_candidate, printed_extensions. flat.
Qed.
Definition candidate_again_at (t : str) : Prop :=
  exists c, attr_value (trim_end t) (ACandidate c) /\ show_attr (ACandidate c) = of_string "candidate" ++ 58 :: show_candidate c /\ candidate_out c.
Lemma candidate_again : forall found comp trans tr prio addr a port typ ty k ps,
  word found -> gen (row 1 32 ice_char) found ->
  word comp -> numeral u32_max comp (dec_value comp) -> gen (row 1 3 (fun c => 48 <= c <= 57)) comp -> word trans -> means trans (transport_name tr) ->
  word prio -> numeral u64_max prio (dec_value prio) -> gen (row 1 10 (fun c => 48 <= c <= 57)) prio ->
  word addr -> reads_address addr a -> word port ->
  numeral 65535 port (dec_value port) -> word typ -> means typ "typ" -> word ty -> means ty (cand_type_name k) ->
  Forall good_ext ps -> Forall out_ext ps ->
  candidate_again_at (found ++ leads 32 (comp :: trans :: prio :: addr :: port :: typ :: ty :: ext_words ps)).
Proof.
  intros found comp trans tr prio addr a port typ ty k ps H1 Gf H2 H3 Gc H4 H5 H6 H7 Gp H8 H9 H10 H11 H12 H13 H14 H15 F FO.
  pose proof (ext_words_ok ps F) as FW.
  assert (K : forall {A} name (reads : str -> A -> Prop), lower_word (of_string name) = true ->
    Forall (fun nv => means (fst nv) name -> exists y, reads (snd nv) y) ps ->
    exists x, option_field (fun n => means n name) ps reads x).
  { intros A name reads L G. apply (option_exists _ _ reads ps (lower_test name L) G). }
  unfold good_ext in F.
  destruct (K N "generation"%string (numeral u32_max) eq_refl) as [x1 X1]; [eapply Forall_impl; [|exact F]; cbv beta; tauto|].
  destruct (K N "network-cost"%string (numeral u32_max) eq_refl) as [x2 X2]; [eapply Forall_impl; [|exact F]; cbv beta; tauto|].
  destruct (K address "raddr"%string reads_address eq_refl) as [x3 X3]; [eapply Forall_impl; [|exact F]; cbv beta; tauto|].
  destruct (K N "rport"%string (numeral 65535) eq_refl) as [x4 X4]; [eapply Forall_impl; [|exact F]; cbv beta; tauto|].
  destruct (K tcp_type_t "tcptype"%string (fun s t => means s (tcp_type_name t)) eq_refl) as [x5 X5]; [eapply Forall_impl; [|exact F]; cbv beta; tauto|].
  destruct (K str "ufrag"%string (fun s x => x = s) eq_refl) as [x6 X6]; [eapply Forall_impl; [|exact F]; cbv beta; tauto|].
  destruct (others_exists (fun n => Exists (means n) extension_names) _ ps (fun n => exists_means extension_names n eq_refl)) as [us U].
  set (c := {| foundation := found; component := dec_value comp; transport := tr; priority := dec_value prio;
    cand_address := a; cand_port := dec_value port; c_type := k; raddr := x3; rport := x4; tcp_type := x5; generation := x1;
    ufrag := x6; networkcost := x2; unknown_extensions := us |}).
  pose proof (extensions_printed c ps FO X1 X2 X6 U) as GX.
  exists c. split; [|split].
  - rewrite trim_end_id.
    + exists found, comp, trans, prio, addr, port, typ, ty, (ext_words ps), ps.
      split; [apply words_leads; fa; assumption|]. unfold c.
      cbn [foundation component transport priority cand_address cand_port c_type raddr rport tcp_type generation ufrag networkcost
        unknown_extensions].
      split; [reflexivity|]. split; [exact H3|]. split; [exact H5|]. split; [exact H7|]. split; [exact H9|]. split; [exact H11|].
      split; [exact H13|]. split; [exact H15|]. split; [apply in_pairs_flat|]. auto 10.
    + assert (S : ends_solid (found ++ leads 32 (comp :: trans :: prio :: addr :: port :: typ :: ty :: ext_words ps)))
        by (apply ends_leads; fa; assumption).
      destruct S as [d [y [-> D]]]. exists y, d. auto.
  - cbn [show_attr]. apply (words_shown TCandidate found _ H1).
  - constructor; try exact GX; unfold c; cbn [foundation component priority cand_address cand_port raddr rport].
    + exact Gf.
    + apply digits_again; [exact Gc|lia].
    + apply digits_again; [exact Gp|lia].
    + exact (address_printed OK _ _ H9).
    + exact (numeral_most _ _ _ H11).
    + destruct x3 as [y|]; [|exact I]. apply option_from in X3. destruct X3 as (n & v & _ & _ & R). exact (address_printed OK _ _ R).
    + destruct x4 as [y|]; [|exact I]. apply option_from in X4. destruct X4 as (n & v & _ & _ & R). exact (numeral_most _ _ _ R).
Qed.
Lemma candidate_parts : forall v, gen rfc_candidate v -> candidate_again_at v.
Proof.
  intros v H. pieces H. pose proof G as GA. pose proof G1 as GC. pose proof G5 as GP.
  apply PRfc.g_row in G; [|lia]. pose proof (class_word _ _ ice_solid (proj1 G) (proj1 (proj2 G))) as W.
  apply (g_digits _ _ u32_max) in G1; [|lia|vm_compute; discriminate]. destruct G1 as (W1 & _ & U1).
  apply g_inv_nocases in G3. destruct G3 as [w [M R]].
  assert (K : exists tr, means x3 (transport_name tr) /\ word x3).
  { cbn in M. destruct M as [<-|[<-|[]]]; [exists Udp|exists Tcp];
      (split; [apply (recased_to _ _ _ R); reflexivity|apply (recased_is_word _ _ R); reflexivity]). }
  destruct K as (tr & T & W3). clear w M R.
  apply (g_digits _ _ u64_max) in G5; [|lia|vm_compute; discriminate]. destruct G5 as (W5 & _ & U5).
  apply (g_address OK) in G7. destruct G7 as (W7 & _ & a & A).
  apply PRfc.g_at_most in G9. destruct G9 as (W9 & _ & U9).
  apply g_inv_nocase in G11. pose proof (recased_is_word _ _ G11 eq_refl) as W11. apply recased_means in G11.
  apply g_inv_nocases in G13. destruct G13 as [w [M R]].
  assert (K : exists k, means x13 (cand_type_name k) /\ word x13).
  { cbn in M. destruct M as [<-|[<-|[<-|[<-|[]]]]]; [exists Host|exists Srflx|exists Prflx|exists Relay];
      (split; [apply (recased_to _ _ _ R); reflexivity|apply (recased_is_word _ _ R); reflexivity]). }
  destruct K as (k & T2 & W13). clear w M R.
  assert (P1 : exists ps, x14 = leads 32 (ext_words ps) /\ Forall good_ext ps /\ Forall out_ext ps).
  { apply g_inv_opt in G14. destruct G14 as [->|H]; [exists []; repeat split; constructor|]. clear -H OK. pieces H.
    apply g_inv_nocase in G0. pose proof (recased_is_word _ _ G0 eq_refl) as V. apply recased_means in G0.
    apply (g_address OK) in G2. destruct G2 as (V2 & _ & A). exists [(x0, x2)].
    split; [cbn [List.concat ext_words flat_map leads app fst snd]; rewrite ?app_nil_r; reflexivity|]. split; fa.
    - unfold good_ext. cbn [fst snd].
      split; [exact V|]. split; [exact V2|]. split; [other_name G0|]. split; [other_name G0|]. split; [intros _; exact A|].
      split; [other_name G0|]. split; other_name G0.
    - apply (known_out _ _ _ G0); [cbn; tauto|discriminate|reflexivity]. }
  assert (P2 : exists ps, x15 = leads 32 (ext_words ps) /\ Forall good_ext ps /\ Forall out_ext ps).
  { apply g_inv_opt in G15. destruct G15 as [->|H]; [exists []; repeat split; constructor|]. clear -H OK. pieces H.
    apply g_inv_nocase in G0. pose proof (recased_is_word _ _ G0 eq_refl) as V. apply recased_means in G0.
    apply PRfc.g_at_most in G2. destruct G2 as (V2 & _ & U). exists [(x0, x2)].
    split; [cbn [List.concat ext_words flat_map leads app fst snd]; rewrite ?app_nil_r; reflexivity|]. split; fa.
    - unfold good_ext. cbn [fst snd].
      split; [exact V|]. split; [exact V2|]. split; [other_name G0|]. split; [other_name G0|]. split; [other_name G0|].
      split; [eauto|]. split; other_name G0.
    - apply (known_out _ _ _ G0); [cbn; tauto|discriminate|reflexivity]. }
  assert (P3 : exists ps, x16 = leads 32 (ext_words ps) /\ Forall good_ext ps /\ Forall out_ext ps).
  { apply (g_inv_leads 32) in G16; [|reflexivity]. destruct G16 as [l [F ->]]. clear -F.
    induction F as [|t l H F [ps [IH1 [IH2 IH3]]]]; [exists []; repeat split; constructor|].
    apply extension_out in H. destruct H as (n & v & -> & G & O). exists ((n, v) :: ps). split; [|split; constructor; assumption].
    cbn [ext_words flat_map leads fst snd app]. cbn [leads flat_map] in IH1. unfold leads, ext_words in IH1 |- *. rewrite IH1.
    repeat (rewrite <- app_assoc; cbn [app]). reflexivity. }
  destruct P1 as (p1 & -> & F1 & O1), P2 as (p2 & -> & F2 & O2), P3 as (p3 & -> & F3 & O3).
  match goal with |- candidate_again_at ?t => replace t with
    (x ++ leads 32 (x1 :: x3 :: x5 :: x7 :: x9 :: x11 :: x13 :: ext_words (p1 ++ p2 ++ p3))) end.
  - eapply candidate_again; eauto; fa; assumption.
  - unfold ext_words. rewrite !flat_map_app. cbn [List.concat leads flat_map app]. rewrite !flat_map_app, app_nil_r.
    repeat (rewrite <- app_assoc; cbn [app]). reflexivity.
Qed.
Lemma a_candidate : again_of ("candidate"%string, rfc_candidate).
Proof.
  starting. destruct (candidate_parts v H) as (c & V & S & O). exists (ACandidate c), (show_candidate c).
  split; [reflexivity|]. split; [exact I|]. split; [exact V|]. split; [exact S|]. exact (candidate_printed c O).
Qed.
(** ** rid *)
Definition piece (t : str) : Prop := t = [] \/ gen (list_of ";" rid_restriction) t.
Lemma many_pieces : forall l, Forall (gen (list_of ";" rid_restriction)) l -> gen (Many (Cat (Lit ";") rid_restriction)) (leads 59 l).
Proof.
  intros l F. induction F as [|t l T F IH]; [constructor|]. change (leads 59 (t :: l)) with ((59 :: t) ++ leads 59 l). apply many_app; [|exact IH].
  apply (g_inv_list 59) in T; [|reflexivity]. destruct T as [y [m [T ->]]].
  change (59 :: y ++ leads 59 m) with (leads 59 (y :: m)). apply g_leads; [reflexivity|exact T].
Qed.
Lemma join_pieces : forall l, Forall piece l -> piece (join [59] (non_empty_vec l)).
Proof.
  intros l F. assert (K : Forall (gen (list_of ";" rid_restriction)) (non_empty_vec l)).
  { induction F as [|t l T F IH]; [constructor|]. unfold non_empty_vec. cbn [filter]. destruct T as [->|T]; [exact IH|].
    destruct (non_empty t); [constructor; assumption|exact IH]. }
  destruct K as [|t m T K]; [left; reflexivity|]. right. rewrite join_leads. apply (g_inv_list 59) in T; [|reflexivity].
  destruct T as [y [k [T ->]]]. inversion T; subst. rewrite <- app_assoc. constructor; [assumption|].
  apply many_app; [apply g_leads; [reflexivity|assumption]|apply many_pieces, K].
Qed.
Lemma piece_one : forall t, gen rid_restriction t -> piece t.
Proof. intros t H. right. rewrite <- (app_nil_r t). constructor; [exact H|constructor]. Qed.
Definition restriction_names : list string := ["max-width"; "max-height"; "max-fps"; "max-fs"; "max-br"; "max-pps"]%string.
Lemma max_piece : forall name x, In name restriction_names -> x <= u32_max ->
  piece (maybe_param (of_string name ++ lit "=") x 0).
Proof.
  intros name x M L. unfold maybe_param. destruct (x =? 0); [left; reflexivity|]. apply piece_one.
  apply (g_alt_in _ _ (cats [Lit name; Lit "="; at_most u32_max])).
  - right. apply in_app_iff. left. apply in_map_iff. exists name. split; [reflexivity|exact M].
  - parts [of_string name; lit "="; show_N x]; [apply g_number, L|flat].
Qed.
Record rid_out (r : rid) : Prop := {
  out_id : gen rid_identifier (rid_id r);
  out_formats : Forall (fun n => n <= 65535) (rid_formats r);
  out_max : Forall (fun n => n <= u32_max) [max_width (rid_params_of r); max_height (rid_params_of r); max_fps (rid_params_of r);
    rid_max_fs (rid_params_of r); rid_max_br (rid_params_of r); max_pps (rid_params_of r)];
  out_unknown : Forall (gen rid_restriction) (rid_unknown (rid_params_of r));
  out_depends : Forall (gen rid_identifier) (rid_depends r) }.
Lemma rid_printed : forall r, rid_out r -> gen rfc_rid (show_rid r).
Proof.
  intros r [O1 O2 O3 O4 O5].
  assert (P2 : piece (show_rid_params (rid_params_of r))).
  { unfold show_rid_params. repeat match goal with H : Forall _ (_ :: _) |- _ => inversion H; clear H; subst end. apply join_pieces.
    repeat apply Forall_cons; try apply Forall_nil.
    1: apply (max_piece "max-width"). 3: apply (max_piece "max-height"). 5: apply (max_piece "max-fps"). 7: apply (max_piece "max-fs").
    9: apply (max_piece "max-br"). 11: apply (max_piece "max-pps"). all: try assumption; try (cbn; tauto).
    unfold show_vec. destruct (rid_unknown (rid_params_of r)) as [|u us] eqn:Q; [left; reflexivity|]. rewrite <- Q in *. clear Q.
    cbn [app]. rewrite app_nil_r, map_id. apply join_pieces. eapply Forall_impl; [|exact O4]. exact piece_one. }
  assert (P3 : piece (show_vec (lit "depends=") [] [c_comma] (fun s => s) (rid_depends r))).
  { destruct (rid_depends r) as [|u us]; [left; reflexivity|]. rewrite show_vec_words; [|discriminate|].
    - rewrite map_id. inversion O5; subst. apply piece_one. eapply g_alt_in; [left; reflexivity|].
      parts [lit "depends="; join [44] (u :: us)]; [apply g_list; [reflexivity|assumption|assumption]|flat].
    - rewrite map_id. eapply Forall_impl; [|exact O5]. intros t T. apply g_rid in T. apply T. }
  unfold show_rid. set (rest := match join [c_semi] _ with [] => [] | _ => _ end).
  parts [rid_id r; lit " "; show_single_direction (rid_direction r); rest]; [exact O1| | |unfold rest; flat].
  { replace (show_single_direction (rid_direction r)) with (of_string (single_direction_name (rid_direction r))) by (destruct (rid_direction r); reflexivity).
    apply g_lits_in. destruct (rid_direction r); cbn; tauto. }
  assert (K : join [c_semi] (non_empty_vec [show_vec (lit "pt=") [] [c_comma] show_N (rid_formats r); show_rid_params (rid_params_of r);
      show_vec (lit "depends=") [] [c_comma] (fun s => s) (rid_depends r)]) = [] \/
    gen (Cat (Or rid_formats_rule rid_restriction) (Many (Cat (Lit ";") rid_restriction)))
     (join [c_semi] (non_empty_vec [show_vec (lit "pt=") [] [c_comma] show_N (rid_formats r); show_rid_params (rid_params_of r);
      show_vec (lit "depends=") [] [c_comma] (fun s => s) (rid_depends r)]))).
  { set (A := show_rid_params _) in *. set (B := show_vec (lit "depends=") _ _ _ _) in *. clearbody A B.
    destruct (rid_formats r) as [|f fs].
    - change (non_empty_vec [show_vec (lit "pt=") [] [c_comma] show_N []; A; B]) with (non_empty_vec [A; B]).
      destruct (join_pieces [A; B]) as [Z|Z]; [apply Forall_cons; [exact P2|]; apply Forall_cons; [exact P3|apply Forall_nil]|left; exact Z|].
      right. apply (g_inv_list 59) in Z; [|reflexivity]. destruct Z as [y [l [Z ZQ]]]. change [c_semi] with [59]. rewrite ZQ.
      inversion Z; subst. constructor; [apply gen_or_right; assumption|apply g_leads; [reflexivity|assumption]].
    - right. rewrite show_vec_words; [|discriminate|apply Forall_map, Forall_forall; intros; apply word_N].
      change (non_empty_vec ((lit "pt=" ++ join [c_comma] (map show_N (f :: fs))) :: [A; B])) with
        ((lit "pt=" ++ join [c_comma] (map show_N (f :: fs))) :: non_empty_vec [A; B]).
      change [c_semi] with [59]. rewrite join_leads. constructor.
      + apply gen_or_left. constructor; [constructor|]. inversion O2; subst. cbn [map]. apply g_list; [reflexivity|apply g_number; assumption|].
        apply Forall_map. eapply Forall_impl; [|eassumption]. intros n L. apply g_number, L.
      + apply many_pieces. unfold non_empty_vec. cbn [filter].
        assert (FA : A <> [] -> gen (list_of ";" rid_restriction) A) by (destruct P2; [congruence|auto]).
        assert (FB : B <> [] -> gen (list_of ";" rid_restriction) B) by (destruct P3; [congruence|auto]).
        destruct A, B; cbn [non_empty]; repeat (apply Forall_cons; [(apply FA || apply FB); discriminate|]); apply Forall_nil. }
  unfold rest. destruct (join [c_semi] _) as [|y l]; [apply g_none|]. destruct K as [K|K]; [discriminate K|].
  apply g_opt. apply (gen_cat _ _ (lit " ")); [constructor|exact K].
Qed.
Lemma depends_out : forall v, gen rid_restriction (lit "depends=" ++ v) -> gen (list_of "," rid_identifier) v.
Proof.
  intros v H. apply g_inv_alt in H. destruct H as [r [M H]]. destruct M as [<-|M].
  - apply g_inv_cat in H. destruct H as (a & b & Q & A & B). apply g_inv_lit in A. subst a. apply app_inv_head in Q. subst v.
    exact B.
  - exfalso. apply in_app_iff in M. destruct M as [M|[<-|[]]].
    + apply in_map_iff in M. destruct M as [n [<- M]]. apply g_inv_cat in H. destruct H as (a & b & Q & A & B). apply g_inv_lit in A. subst a.
      cbn [In] in M. destruct M as [<-|[<-|[<-|[<-|[<-|[<-|[]]]]]]]; discriminate Q.
    + apply g_inv_cat in H. destruct H as (a & b & Q & A & B). apply g_inv_such in A. destruct A as [A [D P]].
      apply g_inv_cat in B. destruct B as (e & b' & -> & B & _). apply g_inv_lit in B. subst e.
      apply g_rid in A. destruct A as [_ A]. apply D. apply Exists_exists. exists "depends"%string. split; [cbn; tauto|].
      apply (PVal.cut_fun 61 (lit "depends=" ++ v) a b' (lit "depends") v).
      * split; [exact Q|]. apply (class_no _ _ _ A). unfold rid_char, alpha_num. lia.
      * split; [reflexivity|apply not_in_b; reflexivity].
Qed.
Lemma cuts_same : forall ps qs, Forall good_rid ps -> Forall2 (fun t nv => cut 61 t (fst nv) (snd nv)) (map eq_text ps) qs -> qs = ps.
Proof.
  intros ps. induction ps as [|[n v] ps IH]; intros qs F H; inversion H; subst; [reflexivity|]. inversion F; subst.
  rewrite (IH _ H7 H4) || (f_equal; [|apply IH; assumption]). destruct y as [a b]. cbn [fst snd] in *.
  destruct (PVal.cut_fun _ _ _ _ n v H2) as [-> ->]; [split; [reflexivity|]|reflexivity].
  match goal with K : good_rid _ |- _ => apply K end.
Qed.
Lemma params_out : forall ps p dep, Forall good_rid ps -> Forall (fun nv => gen rid_restriction (eq_text nv)) ps ->
  rid_params_value (map eq_text ps) p dep ->
  Forall (fun n => n <= u32_max) [max_width p; max_height p; max_fps p; rid_max_fs p; rid_max_br p; max_pps p] /\
  Forall (gen rid_restriction) (rid_unknown p) /\ Forall (gen rid_identifier) dep.
Proof.
  intros ps p dep F R (qs & Q & H1 & H2 & H3 & H4 & H5 & H6 & (vs & ds & D1 & D2 & ->) & us & U & ->).
  apply (cuts_same _ _ F) in Q. subst qs. rewrite Forall_forall in R.
  assert (L : forall name x, field_of (fun n => is_word n name) ps (numeral u32_max) 0 x -> x <= u32_max).
  { intros name x X. apply field_from in X. destruct X as [->|(n & v & _ & _ & X)]; [vm_compute; discriminate|exact (numeral_most _ _ _ X)]. }
  split; [repeat (apply Forall_cons; [eapply L; eassumption|]); apply Forall_nil|]. split.
  - apply Forall_map, Forall_forall. intros nv M. apply (others_from _ _ _ U) in M. exact (R nv (proj1 M)).
  - pose proof (given_in _ _ _ D1) as I. clear D1. induction D2 as [|v d vs ds X D2 IH]; [constructor|].
    cbn [List.concat]. apply Forall_app. split; [|apply IH; intros w K; apply I; right; exact K].
    destruct (I v (or_introl eq_refl)) as [n [M W]]. apply R in M. unfold eq_text in M. cbn [fst snd] in M. unfold is_word in W. subst n.
    apply depends_out in M. apply (g_inv_list 44) in M; [|reflexivity]. destruct M as [y [l [M ->]]].
    assert (N : Forall (fun t => ~ In 44 t) (y :: l)).
    { eapply Forall_impl; [|exact M]. intros t T. apply g_rid in T. apply (class_no _ _ _ (proj2 T)). unfold rid_char, alpha_num. lia. }
    inversion N; subst. apply fields_split in X. subst d.
    assert (Y : split 44 (y ++ leads 44 l) = y :: l) by (apply fields_split, fields_leads; assumption). rewrite Y. exact M.
Qed.
Lemma rid_again : forall id d more r, word id -> ~ In 32 id -> rid_id r = id -> rid_direction r = d ->
  match more with
  | None => rid_formats r = [] /\ rid_params_value [] (rid_params_of r) (rid_depends r)
  | Some params => ends_solid params /\ exists ps, fields 59 params ps /\
      ((exists pts fs rest, ps = (lit "pt=" ++ pts) :: rest /\ fields 44 pts fs /\
          Forall2 (fun f n => exists x, core f x /\ numeral u16_max x n) fs (rid_formats r) /\
          rid_params_value rest (rid_params_of r) (rid_depends r)) \/
       ((forall x rest, ps <> (lit "pt=" ++ x) :: rest) /\ rid_formats r = [] /\
          rid_params_value ps (rid_params_of r) (rid_depends r)))
  end -> rid_out r ->
  again rfc_rid "rid" (id ++ 32 :: of_string (single_direction_name d) ++ match more with None => [] | Some p => 32 :: p end).
Proof.
  intros id d more r W N <- <- M O.
  assert (SD : ~ In 32 (of_string (single_direction_name (rid_direction r)))) by (destruct (rid_direction r); apply not_in_b; reflexivity).
  assert (WD : word (of_string (single_direction_name (rid_direction r)))) by (destruct (rid_direction r); apply word_b; reflexivity).
  assert (S : show_attr (ARid r) = of_string "rid" ++ 58 :: show_rid r) by exact (words_shown TRid _ _ W).
  destruct more as [p|].
  - destruct M as [Ep M].
    assert (En : ends_solid (rid_id r ++ 32 :: of_string (single_direction_name (rid_direction r)) ++ 32 :: p))
      by (apply ends_app, ends_cons, ends_app, ends_cons, Ep).
    apply (again_solid _ _ (ARid r) (show_rid r)); [exact En|exact I| |exact S|exact (rid_printed r O)].
    eexists. exists (of_string (single_direction_name (rid_direction r))), [p].
    split; [apply core_self; [apply starts_app, word_starts, W|exact En]|]. split; [|split; [reflexivity|exact M]].
    cbn [space_parts]. right. eexists. eexists. eexists. split; [split; [reflexivity|exact N]|]. split; [reflexivity|].
    right. eexists. eexists. eexists. split; [split; [reflexivity|exact SD]|]. split; [reflexivity|]. reflexivity.
  - rewrite app_nil_r. assert (En : ends_solid (rid_id r ++ 32 :: of_string (single_direction_name (rid_direction r))))
      by (apply ends_app, ends_cons, word_ends, WD).
    apply (again_solid _ _ (ARid r) (show_rid r)); [exact En|exact I| |exact S|exact (rid_printed r O)].
    eexists. exists (of_string (single_direction_name (rid_direction r))), [].
    split; [apply core_self; [apply starts_app, word_starts, W|exact En]|]. split; [|split; [reflexivity|exact M]].
    cbn [space_parts]. right. eexists. eexists. eexists. split; [split; [reflexivity|exact N]|]. split; [reflexivity|].
    left. split; [exact SD|reflexivity].
Qed.
Lemma a_rid : again_of ("rid"%string, rfc_rid).
Proof.
  starting. pieces H. pose proof G as GI. apply g_rid in G. destruct G as [W F].
  assert (N : ~ In 32 x) by (apply (class_no _ _ _ F); unfold rid_char, alpha_num; lia).
  apply g_inv_lits in G1. destruct G1 as [w [M ->]].
  assert (K : exists d, single_direction_name d = w).
  { cbn in M. destruct M as [<-|[<-|[]]]; [exists Send|exists Recv]; reflexivity. }
  destruct K as [d <-]. clear M.
  apply g_inv_opt in G2. destruct G2 as [->|G2].
  - same (x ++ 32 :: of_string (single_direction_name d) ++ []).
    destruct (rid_params_exist []) as (p & dep & P); [constructor|].
    destruct (params_out [] p dep (Forall_nil _) (Forall_nil _) P) as (O1 & O2 & O3).
    apply (rid_again x d None {| rid_id := x; rid_direction := d; rid_formats := []; rid_params_of := p; rid_depends := dep |});
      try reflexivity; auto. constructor; cbn [rid_id rid_formats rid_params_of rid_depends]; auto.
  - apply g_inv_cat in G2. destruct G2 as [u [v [-> [G2 V]]]]. apply g_inv_lit in G2. subst u.
    apply g_inv_cat in V. destruct V as [a [b [-> [A B]]]]. apply (g_inv_leads 59) in B; [|reflexivity]. destruct B as [l [B ->]].
    pose proof B as RB. apply g_restrictions in B. destruct B as (ps & -> & GB & CB). rewrite Forall_map in RB.
    same (x ++ 32 :: of_string (single_direction_name d) ++ 32 :: a ++ leads 59 (map eq_text ps)).
    assert (WB : Forall word (map eq_text ps)).
    { clear -CB. induction ps as [|nv ps IH]; [constructor|]. cbn [map] in *. inversion CB; subst. constructor; [|auto].
      apply restriction_word; [apply eq_text_nonempty|assumption]. }
    assert (SB : Forall (fun t => ~ In 59 t) (map eq_text ps)) by (eapply Forall_impl; [|exact CB]; exact restriction_59).
    apply g_inv_or in A. destruct A as [A|A].
    + apply g_inv_cat in A. destruct A as [u [pts [-> [A B]]]]. apply g_inv_lit in A. subst u.
      apply (g_inv_list 44) in B; [|reflexivity]. destruct B as [f [fs [B ->]]].
      assert (FC : Forall (fun t => word t /\ Forall SpecVal.is_digit t /\ numeral 65535 t (dec_value t)) (f :: fs)).
      { eapply Forall_impl; [|exact B]. intros t T. apply PRfc.g_at_most, T. }
      assert (FD : Forall restriction_char (f ++ leads 44 fs)).
      { assert (J : Forall (Forall restriction_char) (f :: fs)).
        { eapply Forall_impl; [|exact FC]. intros t (_ & D & _). eapply Forall_impl; [|exact D]. exact digit_restriction_char. }
        inversion J; subst. apply Forall_app. split; [assumption|]. apply leads_class; [unfold restriction_char, vchar; lia|assumption]. }
      assert (FP : Forall restriction_char (lit "pt=" ++ f ++ leads 44 fs)).
      { apply Forall_app. split; [apply restriction_b; reflexivity|exact FD]. }
      destruct (rid_params_exist ps GB) as (p & dep & P).
      destruct (params_out ps p dep GB RB P) as (O1 & O2 & O3).
      apply (rid_again x d (Some ((lit "pt=" ++ f ++ leads 44 fs) ++ leads 59 (map eq_text ps)))
        {| rid_id := x; rid_direction := d; rid_formats := map dec_value (f :: fs); rid_params_of := p; rid_depends := dep |});
        try reflexivity; auto.
      * split; [apply ends_leads_any; [apply restriction_word; [discriminate|exact FP]|exact WB]|].
        exists ((lit "pt=" ++ f ++ leads 44 fs) :: map eq_text ps). split; [apply fields_leads; [apply restriction_59, FP|exact SB]|].
        left. exists (f ++ leads 44 fs), (f :: fs), (map eq_text ps). split; [reflexivity|]. split.
        -- assert (J : Forall (fun t => ~ In 44 t) (f :: fs)).
          { eapply Forall_impl; [|exact FC]. intros t (_ & D & _). apply (class_no _ _ _ D). unfold SpecVal.is_digit. lia. }
          inversion J; subst. apply fields_leads; assumption.
        -- split; [|exact P]. cbn [rid_formats]. clear -FC. generalize dependent (f :: fs). intros l FC.
          induction FC as [|t l (W & D & U) F IH]; [constructor|]. cbn [map]. constructor; [|exact IH].
          exists t. split; [apply word_core, W|exact U].
      * constructor; cbn [rid_id rid_formats rid_params_of rid_depends]; auto.
        apply Forall_map. eapply Forall_impl; [|exact FC]. intros t (_ & _ & U). exact (numeral_most _ _ _ U).
    + pose proof A as RA. apply g_restriction in A. destruct A as (nv & -> & GA & CA).
      destruct (rid_params_exist (nv :: ps)) as (p & dep & P); [constructor; assumption|].
      destruct (params_out (nv :: ps) p dep (Forall_cons _ GA GB) (Forall_cons _ RA RB) P) as (O1 & O2 & O3).
      apply (rid_again x d (Some (eq_text nv ++ leads 59 (map eq_text ps)))
        {| rid_id := x; rid_direction := d; rid_formats := []; rid_params_of := p; rid_depends := dep |});
        try reflexivity; auto.
      * split; [apply ends_leads_any; [apply restriction_word; [apply eq_text_nonempty|exact CA]|exact WB]|].
        exists (eq_text nv :: map eq_text ps). split; [apply fields_leads; [apply restriction_59, CA|exact SB]|].
        right. split; [|split; [reflexivity|exact P]].
        intros y rest J. assert (Q : eq_text nv = lit "pt=" ++ y) by congruence. destruct nv as [n v]. destruct GA as (G1 & G3 & _).
        cbn [fst snd] in *. apply G3. apply (PVal.cut_fun 61 (eq_text (n, v)) n v (lit "pt") y).
        -- split; [reflexivity|exact G1].
        -- split; [exact Q|apply not_in_b; reflexivity].
      * constructor; cbn [rid_id rid_formats rid_params_of rid_depends]; auto.
Qed.
End WithExt.

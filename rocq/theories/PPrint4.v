(** * Proofs: printed values are read back (C11), simple kinds *)
From Coq Require Import List NArith ZArith Lia Bool Ascii String.
From Coq Require Import ZifyBool ZifyNat ZifyN.
From Verif Require Import Str Num Net Types Ext Show Address SpecApi SpecDoc SpecVal SpecItems SpecPrint.
From Verif Require Import StrLemmas NumLemmas NetLemmas PVal PVal2 PVal8 PVal9 PVal10 PVal11 PPrint PPrint2 PPrint3.
Import ListNotations.
Open Scope N_scope.
Open Scope list_scope.

(** ** Texts *)
Lemma word_ends : forall t, word t -> ends_solid t.
Proof.
  intros t [N F]. destruct (exists_last N) as (x & c & ->). exists c, x. split; [reflexivity|].
  apply Forall_app in F. destruct F as [_ F]. inversion F. assumption.
Qed.
Lemma word_starts : forall t, word t -> starts_solid t.
Proof. intros [|c t] [N F]; [congruence|]. inversion F; subst. exists c, t. auto. Qed.
Lemma ends_app : forall a b, ends_solid b -> ends_solid (a ++ b).
Proof. intros a b (c & x & -> & W). exists c, (a ++ x). rewrite app_assoc. auto. Qed.
Lemma ends_cons : forall c b, ends_solid b -> ends_solid (c :: b).
Proof. intros c b H. apply (ends_app [c]), H. Qed.
Lemma ends_nonempty : forall t, ends_solid t -> t <> [].
Proof. intros t (c & x & -> & _) K. apply app_eq_nil in K. destruct K. discriminate. Qed.
Lemma starts_app : forall a b, starts_solid a -> starts_solid (a ++ b).
Proof. intros a b (c & x & -> & W). exists c, (x ++ b). auto. Qed.
Lemma core_self : forall t, starts_solid t -> ends_solid t -> core t t.
Proof.
  intros t S T. exists [], []. cbn [app]. rewrite app_nil_r. split; [reflexivity|].
  split; [constructor|]. split; [constructor|]. right. split; assumption.
Qed.
Lemma word_core : forall t, word t -> core t t.
Proof. intros t W. apply core_self; [apply word_starts | apply word_ends]; exact W. Qed.
Lemma word_class : forall p t, forallb p t = true -> t <> [] -> (forall c, p c = true -> is_ws c = false) -> word t.
Proof.
  intros p t H N P. split; [exact N|]. apply Forall_forall. intros c Hc. apply P.
  rewrite forallb_forall in H. apply H, Hc.
Qed.
Lemma word_N : forall n, word (show_N n).
Proof. intro n. apply word_token, show_N_token. Qed.
Lemma word_ip : forall i, word (show_ip i).
Proof. intro i. apply word_token, show_ip_token. Qed.
Lemma word_b : forall t, non_empty t && no_ws t = true -> word t.
Proof.
  intros t H. apply andb_prop in H. destruct H as [H1 H2]. apply word_token. split; [|exact H2].
  unfold non_empty in H1. apply Bool.negb_true_iff, is_empty_false in H1. exact H1.
Qed.
Lemma not_in_b : forall c t, contains c t = false -> ~ In c t.
Proof. intros c t H. apply contains_not_In, H. Qed.
Lemma not_in_N : forall c n, dec_char c = false -> ~ In c (show_N n).
Proof. intros c n H. apply not_in_b, show_N_no, H. Qed.

(** A list with a separator in front of every element. *)
Definition leads (c : N) (l : list str) : str := flat_map (fun t => c :: t) l.
Lemma leads_app : forall c a b, leads c (a ++ b) = leads c a ++ leads c b.
Proof. intros. apply flat_map_app. Qed.
Lemma join_leads : forall c t l, join [c] (t :: l) = t ++ leads c l.
Proof.
  intros c t l. revert t. induction l as [|x l IH]; intro t.
  - cbn [leads flat_map]. rewrite app_nil_r. reflexivity.
  - rewrite join_cons by discriminate. rewrite IH. reflexivity.
Qed.
Lemma words_leads : forall t l, word t -> Forall word l -> words (t ++ leads 32 l) (t :: l).
Proof.
  intros t l W F. apply words_sws. rewrite <- join_leads. apply sws_join.
  constructor; [apply word_token, W|]. eapply Forall_impl; [|exact F]. intros x Hx. apply word_token, Hx.
Qed.
Lemma words_join : forall l, Forall word l -> words (join [32] l) l.
Proof.
  intros l F. apply words_sws, sws_join. eapply Forall_impl; [|exact F]. intros x Hx. apply word_token, Hx.
Qed.
Lemma fields_leads : forall c t l, ~ In c t -> Forall (fun x => ~ In c x) l -> fields c (t ++ leads c l) (t :: l).
Proof. intros c t l N F. rewrite <- join_leads. apply fields_join; [discriminate | constructor; assumption]. Qed.
Lemma ends_leads : forall t l, word t -> Forall word l -> ends_solid (t ++ leads 32 l).
Proof.
  intros t l W F. destruct l as [|x l]; [cbn [leads flat_map]; rewrite app_nil_r; apply word_ends, W|].
  apply ends_app. destruct (exists_last (l := x :: l)) as (r & y & Eq); [discriminate|]. rewrite Eq in *.
  rewrite leads_app. apply ends_app. apply Forall_app in F. destruct F as [_ F]. inversion F; subst.
  unfold leads. cbn [flat_map]. rewrite app_nil_r. apply ends_cons, word_ends. assumption.
Qed.
Lemma ends_join_words : forall l, l <> [] -> Forall word l -> ends_solid (join [32] l).
Proof. intros [|t l] N F; [congruence|]. rewrite join_leads. inversion F; subst. apply ends_leads; assumption. Qed.
Lemma show_opt_leads : forall {A} pre c (f : A -> str) o, pre = [c] ->
  show_opt pre f [] o = leads c (of_option (option_map f o)).
Proof. intros A pre c f [x|] ->; [|reflexivity]. cbn. rewrite !app_nil_r. reflexivity. Qed.

(** ** Names and values *)
Definition pairs (segs : list (str * option str)) : list (str * str) :=
  flat_map (fun s => match snd s with Some v => [(fst s, v)] | None => [] end) segs.
Lemma given_app : forall is a b x y, given is a x -> given is b y -> given is (a ++ b) (x ++ y).
Proof. intros is a b x y G H. induction G; cbn [app]; [exact H | constructor; assumption..]. Qed.
Lemma given_none : forall (is : str -> Prop) ps, Forall (fun nv => ~ is (fst nv)) ps -> given is ps [].
Proof. intros is ps F. induction F as [|[n v] ps H F IH]; constructor; assumption. Qed.
Lemma given_pairs : forall (is : str -> Prop) f, (forall n, is n <-> f n = true) -> forall segs,
  given is (pairs segs) (flat_map (fun s => if f (fst s) then of_option (snd s) else []) segs).
Proof.
  intros is f H segs. induction segs as [|[n o] segs IH]; [constructor|].
  unfold pairs. cbn [flat_map fst snd]. apply given_app; [|exact IH].
  destruct o as [v|]; cbn [of_option]; [|destruct (f n); constructor].
  destruct (f n) eqn:K.
  - apply given_here; [apply H, K | constructor].
  - apply given_other; [rewrite H, K; discriminate | constructor].
Qed.
Lemma others_printed : forall (known : str -> Prop) segs us, Forall (fun s => known (fst s)) segs ->
  Forall (fun nv => ~ known (fst nv)) us -> others known (pairs segs ++ us) us.
Proof.
  intros known segs us F G. induction F as [|[n o] segs H F IH]; cbn [app].
  - induction G as [|[n v] us H G IH]; constructor; assumption.
  - unfold pairs. cbn [flat_map fst snd]. destruct o; [apply others_drop; assumption | exact IH].
Qed.
Lemma given_printed : forall (is : str -> Prop) f segs us o, (forall n, is n <-> f n = true) ->
  flat_map (fun s => if f (fst s) then of_option (snd s) else []) segs = of_option o ->
  Forall (fun nv => ~ is (fst nv)) us -> given is (pairs segs ++ us) (of_option o).
Proof.
  intros is f segs us o H <- F. rewrite <- (app_nil_r (flat_map _ _)). apply given_app; [apply given_pairs, H|].
  apply given_none, F.
Qed.
Lemma field_printed : forall {A} is ps (reads : str -> A -> Prop) none x o, given is ps (of_option o) ->
  match o with Some v => reads v x | None => x = none end -> field_of is ps reads none x.
Proof.
  intros A is ps reads none x o G H. exists (of_option o). split; [exact G|].
  destruct o as [v|]; cbn; [|split; [constructor | exact H]]. split; [repeat constructor; exists x; exact H | exact H].
Qed.
Lemma option_printed : forall {A} is ps (reads : str -> A -> Prop) sh o,
  given is ps (of_option (option_map sh o)) -> (forall x, o = Some x -> reads (sh x) x) ->
  option_field is ps reads o.
Proof.
  intros A is ps reads sh o G H. eapply field_printed; [exact G|].
  destruct o as [x|]; cbn [option_map]; [|reflexivity]. exists x. split; [reflexivity | apply H; reflexivity].
Qed.
Lemma in_pairs_flat : forall ps, in_pairs (flat_map (fun nv => [fst nv; snd nv]) ps) = Some ps.
Proof. induction ps as [|[a b] ps IH]; [reflexivity|]. cbn [flat_map app in_pairs]. rewrite IH. reflexivity. Qed.
Lemma flat_pairs_app : forall a b : list (str * str),
  flat_map (fun nv => [fst nv; snd nv]) (a ++ b) =
  flat_map (fun nv => [fst nv; snd nv]) a ++ flat_map (fun nv => [fst nv; snd nv]) b.
Proof. intros. apply flat_map_app. Qed.

(** ** Words for enumerations *)
Ltac mns := first [apply means_iff; [reflexivity|] | apply means_upper_iff; [reflexivity|]]; reflexivity.
Ltac wrd := apply word_b; reflexivity.
Lemma transport_printed : forall t, word (show_transport t) /\ means (show_transport t) (transport_name t).
Proof. intros []; split; (wrd || mns). Qed.
Lemma cand_type_printed : forall t, word (show_cand_type t) /\ means (show_cand_type t) (cand_type_name t).
Proof. intros []; split; (wrd || mns). Qed.
Lemma tcp_type_printed : forall t, word (show_tcp_type t) /\ means (show_tcp_type t) (tcp_type_name t).
Proof. intros []; split; (wrd || mns). Qed.
Lemma direction_printed : forall t, word (show_direction t) /\ means (show_direction t) (direction_name t).
Proof. intros []; split; (wrd || mns). Qed.
Lemma addr_type_printed : forall t, word (show_addr_type t) /\ means_upper (show_addr_type t) (addr_type_name t).
Proof. intros []; split; (wrd || mns). Qed.
Lemma group_printed : forall t, word (show_group_semantic t) /\ means_upper (show_group_semantic t) (group_name t).
Proof. intros []; split; (wrd || mns). Qed.
Lemma ssrc_group_printed : forall t, word (show_ssrc_group_semantic t) /\ means_upper (show_ssrc_group_semantic t) (ssrc_group_name t).
Proof. intros []; split; (wrd || mns). Qed.
Lemma setup_printed : forall t, word (show_setup t) /\ means (show_setup t) (setup_name t).
Proof. intros []; split; (wrd || mns). Qed.
Lemma media_printed : forall t, word (show_media_value t) /\ means (show_media_value t) (media_name t).
Proof. intros []; split; (wrd || mns). Qed.
Lemma protocol_printed : forall t, word (show_protocol_value t) /\ means_upper (show_protocol_value t) (protocol_name t).
Proof. intros []; split; (wrd || mns). Qed.
Lemma payload_printed : forall p, payload_range p -> word (show_payload_type p) /\ payload_value (show_payload_type p) p.
Proof.
  intros [n|] H; cbn [show_payload_type payload_value]; [|split; [wrd | reflexivity]].
  split; [apply word_N | apply numeral_printed, H].
Qed.

Section WithExt.
Context {E : Ext}.
Context (X : ext_ok E).

Lemma domain_facts : forall d, domain d -> word d /\ ~ In 58 d /\ ~ In 47 d.
Proof.
  intros d H. destruct (host_domain_chars E X _ _ H) as [N C]. split; [|split].
  - apply (word_class domain_char); [exact C | exact N|]. intros c Hc. unfold domain_char in Hc.
    apply andb_prop in Hc. destruct Hc as [Hc _]. apply andb_prop in Hc. destruct Hc as [H1 H2].
    unfold is_ws. clear -H1 H2. lia.
  - intro K. rewrite forallb_forall in C. apply C in K. discriminate.
  - intro K. rewrite forallb_forall in C. apply C in K. discriminate.
Qed.
Lemma ip_in_range : forall i, ip_range i -> ip_ok i.
Proof. intros [n|n] H; exact H. Qed.
Lemma reads_domain : forall d, domain d -> reads_address d (Fqdn d).
Proof.
  intros d H. right. split; [intros [K _]; exact (proj1 (proj2 (domain_facts _ H)) K)|].
  exists (HDomain d). split; [exact H | reflexivity].
Qed.
Lemma address_read : forall a, address_wf a -> address_range a ->
  word (show_address a) /\ reads_address (show_address a) a.
Proof.
  intros [d|i] W R; cbn [show_address]; (split; [|]).
  - exact (proj1 (domain_facts _ W)).
  - apply reads_domain, W.
  - apply word_ip.
  - apply address_iff, (address_printed X), ip_in_range, R.
Qed.
Definition typed_text (a : typed_address) : str := match a with TFqdn _ d => d | TIp i => show_ip i end.
Lemma typed_read : forall a, typed_wf a -> typed_range a ->
  word (typed_text a) /\ ~ In 47 (typed_text a) /\ reads_typed (typed_addr_type a) (typed_text a) a.
Proof.
  intros [t d|i] W R; cbn [typed_text typed_addr_type].
  - destruct (domain_facts _ W) as (H1 & _ & H3). split; [exact H1|]. split; [exact H3|].
    left. exists d. split; [apply reads_domain, W | reflexivity].
  - split; [apply word_ip|]. split.
    + apply not_in_b. apply (class_not_contains _ _ _ (show_ip_chars i)). reflexivity.
    + apply typed_iff, (typed_printed X), ip_in_range, R.
Qed.
Lemma typed_leads : forall a, show_typed_address a = lit "IN" ++ leads 32 [show_addr_type (typed_addr_type a); typed_text a].
Proof.
  intro a. unfold show_typed_address, leads. cbn [flat_map]. rewrite app_nil_r. destruct a; reflexivity.
Qed.

(** What is to be shown for an attribute with a value: its text and its meaning. *)
Definition prints (a : attr) (s : str) : Prop :=
  show_attr a = of_string (sdp_name a) ++ 58 :: s /\ ends_solid s /\ attr_value s a.
Lemma prints_intro : forall a t s, (show_attr a = attr_to_string t s) ->
  show_attr_type t = of_string (sdp_name a) -> ends_solid s -> attr_value s a -> prints a s.
Proof.
  intros a t s H T S V. split; [|split; assumption]. rewrite H. unfold attr_to_string.
  rewrite (proj2 (is_empty_false s) (ends_nonempty _ S)). rewrite T. reflexivity.
Qed.
Ltac prn := eapply prints_intro; [reflexivity | reflexivity | | ].

Ltac fa := repeat (first [apply Forall_nil | apply Forall_cons | apply Forall_app; split]).

Definition candidate_segs (c : candidate) : list (str * option str) :=
  [ (lit "raddr", option_map show_address (raddr c)); (lit "rport", option_map show_N (rport c));
    (lit "tcptype", option_map show_tcp_type (tcp_type c));
    (lit "generation", option_map show_N (generation c)); (lit "ufrag", ufrag c);
    (lit "network-cost", option_map show_N (networkcost c)) ].
Lemma opt_pairs : forall {A} pre name (f : A -> str) o, pre = 32 :: name ++ [32] ->
  show_opt pre f [] o = leads 32 (flat_map (fun nv => [fst nv; snd nv]) (pairs [(name, option_map f o)])).
Proof.
  intros A pre name f [x|] ->; [|reflexivity]. cbn. rewrite !app_nil_r. f_equal. rewrite <- app_assoc. reflexivity.
Qed.
Lemma pairs_app : forall a b, pairs (a ++ b) = pairs a ++ pairs b.
Proof. intros. apply flat_map_app. Qed.
Lemma candidate_text : forall c, show_candidate c = foundation c ++ leads 32
  ([show_N (component c); show_transport (transport c); show_N (priority c); show_address (cand_address c);
    show_N (cand_port c); lit "typ"; show_cand_type (c_type c)] ++
   flat_map (fun nv => [fst nv; snd nv]) (pairs (candidate_segs c) ++ unknown_extensions c)).
Proof.
  intro c. unfold show_candidate.
  rewrite (opt_pairs (lit " raddr ") (lit "raddr")) by reflexivity.
  rewrite (opt_pairs (lit " rport ") (lit "rport")) by reflexivity.
  rewrite (opt_pairs (lit " tcptype ") (lit "tcptype")) by reflexivity.
  rewrite (opt_pairs (lit " generation ") (lit "generation")) by reflexivity.
  rewrite (opt_pairs (lit " ufrag ") (lit "ufrag")) by reflexivity.
  rewrite (opt_pairs (lit " network-cost ") (lit "network-cost")) by reflexivity.
  assert (U : flat_map (fun nv => sp ++ fst nv ++ sp ++ snd nv) (unknown_extensions c) =
              leads 32 (flat_map (fun nv => [fst nv; snd nv]) (unknown_extensions c))).
  { induction (unknown_extensions c) as [|[n v] l IH]; [reflexivity|]. cbn [flat_map]. rewrite IH.
    rewrite leads_app. cbn. rewrite <- !app_assoc. cbn. rewrite app_nil_r. reflexivity. }
  rewrite U. replace (option_map (fun s => s) (ufrag c)) with (ufrag c) by (destruct (ufrag c); reflexivity).
  rewrite leads_app, flat_pairs_app, leads_app. unfold candidate_segs.
  rewrite <- !leads_app, <- !flat_pairs_app.
  change [ (lit "raddr", option_map show_address (raddr c)); (lit "rport", option_map show_N (rport c));
    (lit "tcptype", option_map show_tcp_type (tcp_type c));
    (lit "generation", option_map show_N (generation c)); (lit "ufrag", ufrag c);
    (lit "network-cost", option_map show_N (networkcost c)) ] with
    ([ (lit "raddr", option_map show_address (raddr c))] ++ [(lit "rport", option_map show_N (rport c))] ++
    [(lit "tcptype", option_map show_tcp_type (tcp_type c))] ++
    [(lit "generation", option_map show_N (generation c))] ++ [(lit "ufrag", ufrag c)] ++
    [(lit "network-cost", option_map show_N (networkcost c))]).
  rewrite !pairs_app, <- !app_assoc.
  match goal with |- context [pairs ?a ++ pairs ?b ++ pairs ?c ++ pairs ?d ++ pairs ?e ++ pairs ?f ++ ?u] =>
    set (R := pairs a ++ pairs b ++ pairs c ++ pairs d ++ pairs e ++ pairs f ++ u) end.
  rewrite !leads_app. change (lit " typ ") with ([32] ++ lit "typ" ++ [32]). cbn [leads flat_map].
  rewrite <- !app_assoc. cbn [app]. unfold sp, c_space. reflexivity.
Qed.
Ltac lower_test n := let k := constr:(of_string n) in
  let H := fresh in assert (H : forall x, means x n <-> str_eqb (to_lower x) k = true)
    by (intro; rewrite str_eqb_eq; apply means_iff; reflexivity); exact H.
Lemma not_named : forall (names : list string) n (us : list (str * str)), In n names ->
  Forall (fun nv => ~ Exists (means (fst nv)) names) us -> Forall (fun nv => ~ means (fst nv) n) us.
Proof.
  intros names n us I F. eapply Forall_impl; [|exact F]. intros nv H K. apply H, Exists_exists. eauto.
Qed.
Lemma candidate_prints : forall c, attr_range (ACandidate c) -> attr_wf (ACandidate c) ->
  prints (ACandidate c) (show_candidate c).
Proof.
  intros c (R1 & R2 & R3 & R4 & R5 & R6 & R7 & R8) (W1 & W2 & W3 & W4 & W5). rewrite candidate_text.
  assert (P : Forall word (flat_map (fun nv => [fst nv; snd nv]) (pairs (candidate_segs c) ++ unknown_extensions c))).
  { rewrite flat_pairs_app. apply Forall_app. split.
    - assert (K : Forall (fun s => word (fst s) /\ option_wf word (snd s)) (candidate_segs c)).
      { unfold candidate_segs. fa; cbn [fst snd]; (split; [wrd|]).
        - destruct (raddr c); [|exact I]. exact (proj1 (address_read _ W3 R8)).
        - destruct (rport c); [apply word_N | exact I].
        - destruct (tcp_type c); [apply tcp_type_printed | exact I].
        - destruct (generation c); [apply word_N | exact I].
        - exact W4.
        - destruct (networkcost c); [apply word_N | exact I]. }
      induction K as [|[n o] l [K1 K2] K IH]; [constructor|]. unfold pairs. cbn [flat_map]. rewrite flat_pairs_app.
      apply Forall_app. split; [|exact IH]. destruct o; cbn; fa; assumption.
    - induction W5 as [|[n v] l (K1 & K2 & _) K IH]; [constructor|]. cbn [flat_map app]. fa; assumption. }
  assert (U : Forall (fun nv => ~ Exists (means (fst nv)) extension_names) (unknown_extensions c)).
  { eapply Forall_impl; [|exact W5]. intros nv K. apply K. }
  destruct (address_read _ W2 R7) as [A1 A2].
  assert (Q : Forall word [show_N (component c); show_transport (transport c); show_N (priority c);
    show_address (cand_address c); show_N (cand_port c); lit "typ"; show_cand_type (c_type c)]).
  { fa; try apply word_N; [apply transport_printed | exact A1 | wrd | apply cand_type_printed]. }
  eapply prints_intro with (t := TCandidate); [cbn [show_attr]; rewrite candidate_text; reflexivity | reflexivity | |].
  { apply ends_leads; [exact W1 | apply Forall_app; split; assumption]. }
  pose proof (proj2 (Forall_app _ _ _) (conj Q P)) as PQ.
  pose proof (words_leads _ _ W1 PQ) as WL. cbn [app] in WL.
  do 10 eexists. split; [exact WL|].
  split; [reflexivity|]. split; [apply numeral_printed, R1|]. split; [apply transport_printed|].
  split; [apply numeral_printed, R2|]. split; [exact A2|]. split; [apply numeral_printed, R3|].
  split; [mns|]. split; [apply cand_type_printed|]. split; [apply in_pairs_flat|].
  assert (N : forall n, In n extension_names -> Forall (fun nv => ~ means (fst nv) n) (unknown_extensions c))
    by (intros n Hn; exact (not_named _ _ _ Hn U)).
  split.
  { apply (option_printed _ _ _ show_N); [|intros x Hx; rewrite Hx in R5; apply numeral_printed, R5].
    eapply given_printed; [lower_test "generation"%string | unfold candidate_segs; destruct (generation c); reflexivity | apply N; cbn; auto 10]. }
  split.
  { apply (option_printed _ _ _ show_N); [|intros x Hx; rewrite Hx in R6; apply numeral_printed, R6].
    eapply given_printed; [lower_test "network-cost"%string | unfold candidate_segs; destruct (networkcost c); reflexivity | apply N; cbn; auto 10]. }
  split.
  { apply (option_printed _ _ _ show_address); [|intros x Hx; rewrite Hx in *; apply address_read; assumption].
    eapply given_printed; [lower_test "raddr"%string | unfold candidate_segs; destruct (raddr c); reflexivity | apply N; cbn; auto 10]. }
  split.
  { apply (option_printed _ _ _ show_N); [|intros x Hx; rewrite Hx in R4; apply numeral_printed, R4].
    eapply given_printed; [lower_test "rport"%string | unfold candidate_segs; destruct (rport c); reflexivity | apply N; cbn; auto 10]. }
  split.
  { apply (option_printed _ _ _ show_tcp_type); [|intros x Hx; apply tcp_type_printed].
    eapply given_printed; [lower_test "tcptype"%string | unfold candidate_segs; destruct (tcp_type c); reflexivity | apply N; cbn; auto 10]. }
  split.
  { apply (option_printed _ _ _ (fun s => s)); [|intros x Hx; reflexivity].
    eapply given_printed; [lower_test "ufrag"%string | unfold candidate_segs; destruct (ufrag c); reflexivity | apply N; cbn; auto 10]. }
  apply others_printed; [|exact U]. unfold candidate_segs.
  fa; cbn [fst]; unfold extension_names;
    repeat (first [apply Exists_cons_hd; mns | apply Exists_cons_tl]).
Qed.
End WithExt.

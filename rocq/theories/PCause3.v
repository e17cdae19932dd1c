(** * Why attributes are refused: attributes of words (proofs for C69) *)
From Coq Require Import List NArith ZArith Bool Ascii String Lia.
From Coq Require Import ZifyBool ZifyNat ZifyN.
From Verif Require Import Str Num Net Types Ext Show Address AttrParse Media Session.
From Verif Require Import StrLemmas NumLemmas NetLemmas.
From Verif Require Import SpecApi SpecDoc SpecVal SpecUnsup SpecWarn SpecWhy SpecCause PPanic PDoc PDoc2 PDoc3 PDoc4.
From Verif Require Import PVal PVal2 PVal3 PVal4 PVal5 PVal6 PVal7 PVal8 PVal9 PWarn PWhy PCause PCause2.
Import ListNotations.
Open Scope N_scope.
Open Scope list_scope.

Ltac here := eapply k_about; [reflexivity|].
Ltac there := apply k_must_ok; [cbn [List.length]; lia|].
Ltac missing := apply k_must_err; [cbn [List.length]; lia | reflexivity].

Lemma group_semantic_iff : forall s g, assoc_str (to_upper s)
  [ (lit "LS", GLs); (lit "FID", GFid); (lit "SRF", GSrf); (lit "ANAT", GAnat);
    (lit "FEC", GFec); (lit "DDP", GDdp); (lit "BUNDLE", GBundle) ] = Some g <-> means_upper s (group_name g).
Proof.
  intros s g. rewrite means_upper_iff by (destruct g; reflexivity). apply table_iff.
  - repeat constructor.
  - intros []; reflexivity.
Qed.
Lemma ssrc_semantic_iff : forall s g, assoc_str (to_upper s)
  [ (lit "DUP", SgDup); (lit "FID", SgFid); (lit "FEC", SgFec);
    (lit "FEC-FR", SgFecFr); (lit "SIM", SgSim) ] = Some g <-> means_upper s (ssrc_group_name g).
Proof.
  intros s g. rewrite means_upper_iff by (destruct g; reflexivity). apply table_iff.
  - repeat constructor.
  - intros []; reflexivity.
Qed.
Lemma transport_iff : forall s t, assoc_str (to_lower s) [ (lit "udp", Udp); (lit "tcp", Tcp) ] = Some t <->
  means s (transport_name t).
Proof.
  intros s g. rewrite means_iff by (destruct g; reflexivity). apply table_iff.
  - repeat constructor.
  - intros []; reflexivity.
Qed.
Lemma cand_type_iff : forall s t, assoc_str (to_lower s)
  [ (lit "host", Host); (lit "srflx", Srflx); (lit "prflx", Prflx); (lit "relay", Relay) ] = Some t <->
  means s (cand_type_name t).
Proof.
  intros s g. rewrite means_iff by (destruct g; reflexivity). apply table_iff.
  - repeat constructor.
  - intros []; reflexivity.
Qed.

Section WithExt.
Context {E : Ext}.

Lemma remote_candidates_kept : forall v, kept (parse_remote_candidates v) (remote_candidates_rule v).
Proof.
  intro v. unfold parse_remote_candidates, remote_candidates_rule. apply k_words.
  destruct (split_whitespace v) as [|w0 ws]; [missing|]. there. here.
  apply k_bind; [apply number_kept|]. intros c _. destruct ws as [|w1 ws]; [missing|]. there. here.
  apply k_bind; [apply address_kept|]. intros a _. destruct ws as [|w2 ws]; [missing|]. there. here.
  apply k_small; [reflexivity|]. intros n _ _. apply k_nil.
Qed.
Lemma msid_kept : forall v, kept (parse_msid v) (msid_rule v).
Proof.
  intro v. unfold parse_msid, msid_rule. apply k_words. apply k_single.
  destruct (split_whitespace v) as [|w0 ws]; [missing|]. there. apply k_nil.
Qed.
Lemma msid_semantic_kept : forall v, kept (parse_msid_semantic v) (msid_semantic_rule v).
Proof.
  intro v. unfold parse_msid_semantic, msid_semantic_rule. apply k_words. apply k_single.
  destruct (split_whitespace v) as [|w0 ws]; [missing|]. there. apply k_nil.
Qed.
Lemma group_kept : forall v, kept (parse_group v) (group_rule v).
Proof.
  intro v. unfold parse_group, group_rule. apply k_words.
  destruct (split_whitespace v) as [|w0 ws]; [missing|]. there. here.
  pose proof (group_semantic_iff w0) as I. destruct (assoc_str _ _) as [g|].
  - apply k_known_ok; [exists g; apply I; reflexivity | apply k_nil].
  - apply k_known_err. intros (g & G). apply I in G. discriminate.
Qed.
Lemma rtpmap_kept : forall v, kept (parse_rtpmap v) (rtpmap_rule v).
Proof.
  intro v. unfold parse_rtpmap, rtpmap_rule. apply k_words.
  destruct (split_whitespace v) as [|w0 ws]; [missing|]. there. here.
  apply k_small; [reflexivity|]. intros n _ _. destruct ws as [|w1 ws]; [missing|]. there. here.
  apply k_one, k_fields. change 47 with c_slash.
  destruct (split c_slash w1) as [|f0 fs] eqn:S; [destruct (split_nonempty _ _ S)|].
  destruct fs as [|f1 fs]; [missing|]. there. here. apply k_bind; [apply number_kept|]. intros f _.
  destruct fs as [|f2 fs].
  - cbn [bind]. apply k_when_no; [cbn [List.length]; lia | apply k_nil].
  - apply k_when; [cbn [List.length]; lia|]. here. rewrite bind_assoc. apply k_bind; [apply number_kept|].
    intros c _. cbn [bind]. apply k_nil.
Qed.
Lemma rtcp_kept : forall v, kept (parse_rtcp v) (rtcp_rule v).
Proof.
  intro v. unfold parse_rtcp, rtcp_rule. apply k_words.
  destruct (split_whitespace v) as [|w0 ws]; [missing|]. there. here.
  apply k_bind; [apply number_kept|]. intros p _. destruct ws as [|w1 ws].
  { apply k_when_no; [cbn [List.length]; lia | apply k_nil]. }
  apply k_when; [cbn [List.length]; lia|]. apply k_flat. cbn [app]. here.
  apply k_bind; [apply network_kept|]. intros _ _. destruct ws as [|w2 ws]; [missing|]. there. here.
  apply k_bind; [apply family_kept|]. intros t Ht. destruct ws as [|w3 ws]; [missing|]. there. here. here.
  apply k_bind; [apply typed_kept; apply address_type_iff, addr_type_iff, Ht|]. intros a _. apply k_nil.
Qed.
Lemma sctpmap_kept : forall v, kept (parse_sctpmap v) (sctpmap_rule v).
Proof.
  intro v. unfold parse_sctpmap, sctpmap_rule. apply k_words. cbv zeta.
  destruct (split_whitespace v) as [|w0 [|w1 [|w2 [|w3 ws]]]]; cbn [List.length Nat.eqb negb]; try missing.
  there. here. cbn [idx nth_error bind]. apply k_bind; [apply number_kept|]. intros p _. here.
  apply k_must; [|reflexivity|].
  - rewrite negb_false_iff, means_iff by reflexivity. apply str_eqb_eq.
  - intros _. here. apply k_bind; [apply number_kept|]. intros c _. apply k_nil.
Qed.
Lemma simulcast_list_kept : forall w, kept (parse_simulcast_version_list w) (simulcast_list w).
Proof.
  intro w. unfold parse_simulcast_version_list, simulcast_list.
  destruct (contains c_eq w) eqn:C.
  - destruct (splitn2_eq w C) as (d & l & S). assert (K : cut 61 w d l) by (apply cut_splitn2, S).
    eapply kept_same; [apply at_cut_at, K|]. rewrite S. cbn [idx nth_error bind].
    unfold say_quoted, is_word. destruct (str_eqb_spec d (lit "rid")) as [Q|Q]; split; cbn [fst snd bind].
    + split; eauto.
    + intros e _. split; [intros [X _]; contradiction | discriminate].
    + split; [intro; contradiction | intros (a & X); discriminate].
    + intros e _. setoid_rewrite quotes_debug. split.
      * intros (_ & q & -> & ->). reflexivity.
      * intro H. split; [exact Q|]. exists (debug_str d). split; [reflexivity|].
        change (Err (EGeneric (of_string "Simulcast attribute has unknown list descriptor '" ++ debug_str d ++ of_string "'"))
                = @Err ierr (list simulcast_version) e) in H. congruence.
  - eapply kept_same; [apply at_cut_none; apply contains_not_In, C|]. split; cbn [no_rule fst snd].
    + split; eauto.
    + intros e _. split; [tauto | discriminate].
Qed.
Lemma single_direction_same : forall a b d x, parse_single_direction a = Ok d -> parse_single_direction b = Ok x ->
  (single_direction_eqb x d = false <-> Some b <> Some a).
Proof.
  intros a b d x Ha Hb. apply single_direction_iff in Ha, Hb. unfold is_word in *. subst a b.
  split.
  - intros H K. injection K as K. apply of_string_inj in K. destruct d, x; cbn in *; discriminate.
  - intro H. destruct d, x; cbn; try reflexivity; destruct H; reflexivity.
Qed.
Lemma simulcast_kept : forall v, kept (parse_simulcast v) (simulcast_rule v).
Proof.
  intro v. unfold parse_simulcast, simulcast_rule. apply k_words.
  destruct (split_whitespace v) as [|w0 ws]; [missing|]. there. here.
  apply k_bind; [apply direction_word_kept|]. intros d Hd. destruct ws as [|w1 ws]; [missing|]. there. here.
  apply k_bind; [apply simulcast_list_kept|]. intros f _. destruct ws as [|w2 ws].
  { cbn [bind]. apply k_when_no; [cbn [List.length]; lia | apply k_nil]. }
  apply k_when; [cbn [List.length]; lia|]. apply k_flat. cbn [app]. here. rewrite bind_assoc.
  apply k_bind; [apply direction_word_kept|]. intros x Hx. cbn [nth_error].
  pose proof (single_direction_same _ _ _ _ Hd Hx) as Z.
  destruct (single_direction_eqb x d).
  - apply k_must_err; [|reflexivity]. intro K. apply Z in K. discriminate.
  - apply k_must_ok; [apply Z; reflexivity|]. destruct ws as [|w3 ws]; [missing|]. there. here.
    apply k_bind; [apply simulcast_list_kept|]. intros l _. apply k_nil.
Qed.
Lemma extension_kept : forall c n v, kept (candidate_extension c n v) (extension n v).
Proof.
  intros c n v. unfold candidate_extension, extension. cbv zeta.
  apply k_lower; [reflexivity | reflexivity | apply k_map, number_kept |].
  apply k_lower; [reflexivity | reflexivity | apply k_map, number_kept |].
  apply k_lower; [reflexivity | reflexivity | apply k_map, address_kept |].
  apply k_lower; [reflexivity | reflexivity | |].
  { apply k_single, k_small; [reflexivity|]. intros p _ _. apply k_nil. }
  apply k_lower; [reflexivity | reflexivity | |].
  { apply k_single, k_table; [apply tcp_type_iff | reflexivity |]. intros t _. apply k_nil. }
  destruct (str_eqb _ _); apply k_no_name.
Qed.
Lemma extensions_kept : forall ws c, kept (candidate_extensions c ws) (all (extensions ws)).
Proof.
  fix IH 1. intros [|n [|v ws]] c; cbn [candidate_extensions extensions].
  - apply k_nil.
  - apply k_known_err. tauto.
  - apply k_bind; [apply extension_kept|]. intros c' _. apply IH.
Qed.
Lemma candidate_kept : forall v, kept (parse_candidate v) (candidate_rule v).
Proof.
  intro v. unfold parse_candidate, candidate_rule. apply k_words. cbv zeta.
  destruct (split_whitespace v) as [|w0 [|w1 [|w2 [|w3 [|w4 [|w5 [|w6 [|w7 ws]]]]]]]]; try missing. there.
  replace (Nat.ltb _ 8) with false by (symmetry; apply Nat.ltb_ge; cbn [List.length]; lia).
  cbn [idx nth_error bind skipn app]. here.
  apply k_bind; [apply number_kept|]. intros n1 _. here.
  apply k_ok_or; [apply transport_iff | reflexivity |]. intros t _. here.
  apply k_bind; [apply number_kept|]. intros n3 _. here.
  apply k_bind; [apply address_kept|]. intros a _. here.
  apply k_small; [reflexivity|]. intros n5 _ _. here.
  apply k_must; [rewrite negb_false_iff, means_iff by reflexivity; apply str_eqb_eq | reflexivity |]. intros _. here.
  apply k_ok_or; [apply cand_type_iff | reflexivity |]. intros ct _.
  apply k_bind; [apply extensions_kept|]. intros c _. apply k_nil.
Qed.
Lemma cut_cases : forall sep s, (contains sep s = false /\ splitn 2 sep s = [s]) \/
  (exists a b, contains sep s = true /\ cut sep s a b /\ splitn 2 sep s = [a; b] /\ exists l, split sep s = a :: l).
Proof.
  intros sep s. destruct (splitn2_cases sep s) as [H|(a & b & Q & C & S)]; [left; exact H | right].
  exists a, b. assert (K : cut sep s a b) by (apply cut_splitn2, S). split.
  - apply contains_In. eapply cut_In, K.
  - split; [exact K|]. split; [exact S|]. rewrite Q, split_app by exact C. eauto.
Qed.
Lemma k_before : forall {A} (x : res ierr A) sep v (r : str -> rule) p l cs, split sep v = p :: l ->
  kept x (all (r p :: cs)) -> kept x (all (before sep v r :: cs)).
Proof. intros A x sep v r p l cs S K. eapply k_head; [eapply before_at, S | exact K]. Qed.
Lemma k_at_cut : forall {A} (x : res ierr A) sep v (r : str -> str -> rule) a b cs, cut sep v a b ->
  kept x (all (r a b :: cs)) -> kept x (all (at_cut sep v r :: cs)).
Proof. intros A x sep v r a b cs C K. eapply k_head; [apply at_cut_at, C | exact K]. Qed.
Lemma k_no_cut : forall {A} (x : res ierr A) sep v (r : str -> str -> rule) cs, contains sep v = false ->
  kept x (all cs) -> kept x (all (at_cut sep v r :: cs)).
Proof. intros A x sep v r cs C K. apply k_skip; [apply at_cut_none, contains_not_In, C | exact K]. Qed.
Lemma word_byte_string : forall more, Forall token more ->
  (valid_byte_string (join sp more) = true <-> Forall (fun w => ~ In 0 w) more).
Proof.
  intros more Hw. unfold valid_byte_string.
  assert (Z : forall c, is_ws c = true -> c <> 32 -> contains c (join sp more) = false).
  { intros c Hc Hn. apply join_contains; [exact Hn|]. eapply Forall_impl; [|exact Hw].
    intros w [_ F] X. unfold no_ws in F. rewrite forallb_forall in F. specialize (F _ X). rewrite Hc in F. discriminate. }
  rewrite (Z c_lf), (Z c_cr) by (reflexivity || discriminate). rewrite !orb_false_r.
  rewrite negb_true_iff. apply join_contains. discriminate.
Qed.
Lemma extmap_kept : forall v, kept (parse_extmap v) (extmap_rule v).
Proof.
  intro v. unfold parse_extmap, extmap_rule. apply k_words. cbv zeta.
  pose proof (sws_tokens v) as W.
  destruct (split_whitespace v) as [|w0 [|w1 ws]]; try missing. there.
  replace (Nat.ltb _ 2) with false by (symmetry; apply Nat.ltb_ge; cbn [List.length]; lia).
  cbn [idx nth_error bind skipn]. inversion W as [|? ? _ W1]; subst. inversion W1 as [|? ? _ W2]; subst. clear W W1.
  assert (Rest : forall id d, kept
    (ext <- (if Nat.eqb (List.length (w0 :: w1 :: ws)) 2 then Ok None
       else if negb (valid_byte_string (join sp ws))
         then Err (gen "Illegal character in extmap extension attributes") else Ok (Some (join sp ws))) ;;
     Ok (AExtmap {| ext_id := id; ext_direction := d; ext_url := w1; ext_attributes := ext |}))
    (all [must (Forall (fun w => ~ In 0 w) ws) "Illegal character in extmap extension attributes"])).
  { intros id d. pose proof (word_byte_string ws W2) as V. destruct ws as [|w2 ws].
    - apply k_must_ok; [constructor | apply k_nil].
    - replace (Nat.eqb _ 2) with false by (symmetry; apply Nat.eqb_neq; cbn [List.length]; lia).
      destruct (valid_byte_string _); cbn [negb bind].
      + apply k_must_ok; [apply V; reflexivity | apply k_nil].
      + apply k_must_err; [|reflexivity]. intro X. apply V in X. discriminate. }
  here. change c_slash with 47.
  destruct (cut_cases 47 w0) as [[C S]|(a & b & C & K & S & l & F)]; rewrite C; cbn [negb].
  - eapply k_before; [apply split_none, C|]. rewrite bind_assoc. apply k_bind; [apply number_kept|].
    intros id _. here. apply k_no_cut; [exact C|]. apply Rest.
  - eapply k_before; [exact F|]. rewrite S. cbn [idx nth_error bind]. rewrite bind_assoc.
    apply k_bind; [apply number_kept|]. intros id _. here. eapply k_at_cut; [exact K|].
    pose proof (direction_iff b) as I. destruct (assoc_str _ _) as [d|].
    + apply k_must_ok; [exists d; apply I; reflexivity|]. apply Rest.
    + apply k_must_err; [|reflexivity]. intros (d & D). apply I in D. discriminate.
Qed.
Lemma ssrc_kept : forall v, kept (parse_ssrc_ v) (ssrc_rule v).
Proof.
  intro v. unfold parse_ssrc_, ssrc_rule. apply k_single. change 32 with c_space.
  destruct (cut_cases c_space v) as [[C S]|(a & b & C & K & S & l & F)]; rewrite S.
  - eapply k_before; [apply split_none, C|]. apply k_bind; [apply number_kept|]. intros id _. apply k_nil.
  - eapply k_before; [exact F|]. apply k_bind; [apply number_kept|]. intros id _. unfold ssrc_set_attribute. cbv zeta.
    destruct (cut_cases c_colon b) as [[C' S']|(a' & b' & C' & _ & S' & _)]; rewrite C'; cbn [negb]; [apply k_nil|].
    rewrite S'. apply k_nil.
Qed.
Lemma ssrc_group_kept : forall v, kept (parse_ssrc_group v) (ssrc_group_rule v).
Proof.
  intro v. unfold parse_ssrc_group, ssrc_group_rule. apply k_words. pose proof (sws_tokens v) as W.
  destruct (split_whitespace v) as [|w0 ws]; [missing|]. there. here. cbn [tl].
  pose proof (ssrc_semantic_iff w0) as I. destruct (assoc_str _ _) as [g|].
  2: { apply k_known_err. intros (g & G). apply I in G. discriminate. }
  apply k_known_ok; [exists g; apply I; reflexivity|]. apply k_bind.
  - apply k_mapM. intros w Hw. rewrite Forall_forall in W. destruct (W w (or_intror Hw)) as [_ T].
    unfold parse_ssrc. rewrite bind_assoc. cbn [bind]. apply (k_map (parse_ssrc_ w) (fun x => x)).
    eapply kept_same; [|apply ssrc_kept]. unfold ssrc_rule.
    assert (N : contains 32 w = false).
    { apply contains_not_In. intro X. unfold no_ws in T. rewrite forallb_forall in T. specialize (T _ X). discriminate. }
    destruct (before_at 32 w (number u32_max) w [] (split_none _ _ N)) as [S1 S2].
    split; [symmetry; exact S1 | intro e; symmetry; apply S2].
  - intros l Hl. apply mapM_ok in Hl. destruct Hl as [|x y ws l _ _].
    + apply k_must_err; [intro X; apply X; reflexivity | reflexivity].
    + apply k_must_ok; [discriminate | apply k_nil].
Qed.
Lemma octet_kept : forall t, kept
  (if negb (byte_len t =? 2) then Err (gen "fingerpint's byte tokens must have 2 hexdigits")
   else res_map_err EInteger (parse_uint 16 u8_max t)) (octet t).
Proof.
  intro t. unfold octet. apply k_must; [rewrite negb_false_iff; apply N.eqb_eq | reflexivity |].
  intros _. apply k_one, hex_kept.
Qed.
Lemma hash_octets_count : forall h, hash_octets h = octet_count h.
Proof. intros []; reflexivity. Qed.
Lemma fingerprint_kept : forall v, kept (parse_fingerprint v) (fingerprint_rule v).
Proof.
  intro v. unfold parse_fingerprint, fingerprint_rule. apply k_words. cbv zeta.
  destruct (split_whitespace v) as [|w0 [|w1 [|w2 ws]]]; cbn [List.length Nat.eqb negb]; try missing.
  there. here. cbn [idx nth_error bind].
  apply k_known; [apply hash_iff | | |].
  { intros e. unfold hash_type_from_name. destruct (assoc_str _ _); intro H; [discriminate|]. inversion H; subst. eauto. }
  { unfold hash_type_from_name. destruct (assoc_str _ _); discriminate. }
  intros h Hh. apply hash_iff in Hh. here. apply k_one, k_fields. unfold parse_octets. rewrite bind_assoc.
  apply k_bind; [apply k_mapM; intros t _; apply octet_kept|].
  intros bs Hb. apply mapM_ok in Hb. assert (Hl : List.length (split c_colon w1) = List.length bs) by (clear -Hb; induction Hb; cbn [List.length]; congruence).
  clear Hb. rename Hl into Hb. change c_colon with 58 in Hb.
  assert (U : forall h', is_word w0 (hash_name h') -> h' = h).
  { intros h' H'. unfold is_word in *. rewrite Hh in H'. apply of_string_inj in H'. destruct h, h'; (reflexivity || discriminate). }
  here. apply k_one. rewrite <- Hb. rewrite <- hash_octets_count. destruct (Nat.eqb_spec (List.length (split 58 w1)) (hash_octets h)) as [L|L]; cbn [negb bind].
  - unfold fingerprint_try_from. rewrite <- hash_octets_count, <- Hb, L, Nat.eqb_refl. cbn [bind]. split; cbn [fst snd].
    + split; [eauto|]. intros _. exists h. auto.
    + intros e _. split; [|discriminate]. intros (h' & d1 & d2 & H' & N & _). apply U in H'. subst h'. contradiction.
  - split; cbn [fst snd].
    + split; [|intros (a & X); discriminate]. intros (h' & H' & X). apply U in H'. subst h'. contradiction.
    + intros e _. split.
      * intros (h' & d1 & d2 & H' & _ & D1 & D2 & ->). apply U in H'. subst h'. apply decimal_iff in D1, D2. subst d1 d2.
        reflexivity.
      * intro H. exists h. do 2 eexists. split; [exact Hh|]. split; [exact L|].
        split; [apply decimal_iff; reflexivity|]. split; [apply decimal_iff; reflexivity|].
        match type of H with Err ?m = Err _ => assert (Q : e = m) by congruence end. rewrite Q. reflexivity.
Qed.
End WithExt.

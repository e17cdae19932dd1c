(** * Proofs: printed values are read back (C11), fmtp *)
From Coq Require Import List NArith ZArith Lia Bool Ascii String.
From Coq Require Import ZifyBool ZifyNat ZifyN.
From Verif Require Import Str Num Net Types Ext Show Address SpecApi SpecDoc SpecVal SpecItems SpecPrint.
From Verif Require Import StrLemmas NumLemmas NetLemmas PDoc4 PVal PVal2 PVal8 PVal9 PVal10 PVal11 PPrint PPrint2 PPrint3 PPrint4 PPrint5 PPrint6.
Import ListNotations.
Open Scope N_scope.
Open Scope list_scope.

Lemma fmtp_params_dec : forall p q : fmtp_params, {p = q} + {p <> q}.
Proof.
  assert (O : forall a b : option N, {a = b} + {a <> b}) by (decide equality; apply N.eq_dec).
  assert (R : forall a b : rtx_params, {a = b} + {a <> b}) by (decide equality; apply N.eq_dec).
  intros p q. decide equality; first [apply N.eq_dec | apply bool_dec | apply O | apply (list_eq_dec N.eq_dec)
    | apply (list_eq_dec (list_eq_dec N.eq_dec)) | decide equality; apply R].
Qed.

(** ** The text *)
Definition flag_opt (b : bool) : option str := if b then Some [49] else None.
Definition level_opt (n : N) : option str :=
  let t := pad0 6 (show_hex n) in if str_eqb t (lit "42000a") then None else Some t.
Definition fmtp_segs (p : fmtp_params) : list (str * option str) :=
  [ (lit "profile-level-id", level_opt (profile_level_id p));
    (lit "level-asymmetry-allowed", flag_opt (level_asymmetry_allowed p));
    (lit "packetization-mode", num_opt (packetization_mode p) 0);
    (lit "max-fs", num_opt (max_fs p) 0);
    (lit "max-cpb", num_opt (max_cpb p) 0);
    (lit "max-dpb", num_opt (max_dpb p) 0);
    (lit "max-br", num_opt (max_br p) 0);
    (lit "max-mbps", num_opt (max_mbps p) 0);
    (lit "max-fr", num_opt (max_fr p) 0);
    (lit "profile", option_map show_N (profile p));
    (lit "level-idx", option_map show_N (level_idx p));
    (lit "tier", option_map show_N (tier p));
    (lit "maxplaybackrate", num_opt (maxplaybackrate p) 48000);
    (lit "maxaveragebitrate", num_opt (maxaveragebitrate p) 0);
    (lit "ptime", num_opt (ptime p) 0);
    (lit "minptime", num_opt (minptime p) 0);
    (lit "maxptime", num_opt (maxptime p) 0);
    (lit "usedtx", flag_opt (usedtx p));
    (lit "stereo", flag_opt (stereo p));
    (lit "useinbandfec", flag_opt (useinbandfec p));
    (lit "cbr", flag_opt (cbr p)) ].
Lemma flag_seg : forall n b, maybe_bool_param n b false = join [59] (map tok (pairs [(n, flag_opt b)])).
Proof. intros n []; reflexivity. Qed.
Lemma level_seg : forall name n x, name = n ++ [61] ->
  maybe_param_str name (pad0 6 (show_hex x)) (lit "42000a") = join [59] (map tok (pairs [(n, level_opt x)])).
Proof.
  intros name n x ->. unfold maybe_param_str, level_opt. destruct (str_eqb _ _); [reflexivity|]. cbn -[pad0].
  unfold tok. cbn [fst snd]. rewrite <- app_assoc. reflexivity.
Qed.
Lemma opt_seg : forall name n o, name = n ++ [61] ->
  show_opt name show_N [] o = join [59] (map tok (pairs [(n, option_map show_N o)])).
Proof.
  intros name n [x|] ->; [|reflexivity]. cbn. unfold tok. cbn [fst snd]. rewrite app_nil_r, <- app_assoc. reflexivity.
Qed.
Lemma segs_concat : forall segs, List.concat (map (fun s => map tok (pairs [s])) segs) = map tok (pairs segs).
Proof.
  induction segs as [|s segs IH]; [reflexivity|]. cbn [map List.concat]. rewrite IH, <- map_app, <- pairs_app. reflexivity.
Qed.
Lemma fmtp_text : forall p, rtx p = None -> dtmf_tones p = [] -> encodings p = [] ->
  (List.length (unknown_tokens p) <= 1)%nat -> Forall (fun t : str => t <> []) (unknown_tokens p) ->
  show_fmtp_params p = join [59] (map tok (pairs (fmtp_segs p)) ++ unknown_tokens p).
Proof.
  intros p R D En L U. unfold show_fmtp_params. rewrite R, D, En. cbn [non_empty is_empty negb].
  assert (K : fmtp_param_list p =
    map (join [59]) (map (fun s => map tok (pairs [s])) (fmtp_segs p) ++ [unknown_tokens p])).
  { unfold fmtp_param_list, fmtp_segs. cbn [map app].
    repeat (apply f_equal2; [first [apply flag_seg | apply level_seg; reflexivity | apply param_seg; reflexivity
      | apply opt_seg; reflexivity | idtac]|]); [|reflexivity].
    destruct (unknown_tokens p) as [|x [|y l]] eqn:Ku; [reflexivity| |cbn in L; lia].
    unfold show_vec. cbn [map]. inversion U; subst. destruct x; [congruence|]. cbn. f_equal. apply app_nil_r. }
  rewrite K. unfold non_empty_vec, c_semi. rewrite join_parts.
  - rewrite concat_app, segs_concat. cbn [List.concat]. rewrite app_nil_r. reflexivity.
  - apply Forall_app. split; [|constructor; [exact U | constructor]].
    apply Forall_forall. intros l Hl. apply in_map_iff in Hl. destruct Hl as (s & <- & _). apply tok_nonempty.
Qed.

(** ** Reading it *)
Lemma upper_test : forall n, upper_word (of_string n) = true ->
  forall x, means_upper x n <-> str_eqb (to_upper x) (of_string n) = true.
Proof. intros n H x. rewrite str_eqb_eq. apply means_upper_iff, H. Qed.
Lemma fmtp_upper : forall n, In n fmtp_names -> upper_word (of_string n) = true.
Proof.
  apply Forall_forall. unfold fmtp_names. repeat (constructor; [reflexivity|]). constructor.
Qed.
Definition fmtp_known (x : str) : bool := existsb (fun n => str_eqb (to_upper x) (of_string n)) fmtp_names.
Lemma fmtp_known_iff : forall x, fmtp_known x = true <-> Exists (means_upper x) fmtp_names.
Proof.
  intro x. unfold fmtp_known. rewrite existsb_exists, Exists_exists. split; intros (n & Hn & H); exists n.
  - split; [exact Hn|]. apply upper_test; [apply fmtp_upper, Hn | exact H].
  - split; [exact Hn|]. apply upper_test; [apply fmtp_upper, Hn | exact H].
Qed.
Lemma rtx_not : forall ps, Forall (fun nv => ~ means_upper (fst nv) "APT" /\ ~ means_upper (fst nv) "RTX-TIME") ps ->
  rtx_value ps None.
Proof.
  intros ps. induction ps as [|[n v] ps IH] using rev_ind; intro F; [constructor|].
  apply Forall_app in F. destruct F as [F1 F2]. inversion F2; subst. apply rtx_other; [apply IH, F1 | tauto..].
Qed.
Lemma level_inj : forall x, x <= 16777215 -> str_eqb (pad0 6 (show_hex x)) (lit "42000a") = true -> x = 66 * 65536 + 10.
Proof.
  intros x R H. apply str_eqb_eq in H. pose proof (parse_show_hex 16777215 x 6 R) as K. rewrite H in K.
  assert (Q : parse_uint 16 16777215 (lit "42000a") = (Ok 4325386 : res _ N)) by (vm_compute; reflexivity).
  rewrite Q in K. inversion K. reflexivity.
Qed.
Lemma level_printed : forall is ps x, given is ps (of_option (level_opt x)) -> x <= 16777215 ->
  field_of is ps (hex_numeral 16777215) (66 * 65536 + 10) x.
Proof.
  intros is ps x G R. eapply field_printed; [exact G|]. unfold level_opt.
  destruct (str_eqb (pad0 6 (show_hex x)) (lit "42000a")) eqn:K; [apply level_inj; assumption|].
  apply hex_numeral_iff, parse_show_hex, R.
Qed.
Lemma flag_printed : forall is ps b, given is ps (of_option (flag_opt b)) -> field_of is ps flag_numeral false b.
Proof.
  intros is ps b G. eapply field_printed; [exact G|]. destruct b; [|reflexivity].
  exact (numeral_printed 1 1 ltac:(lia)).
Qed.
Lemma opt_printed : forall is ps m o, given is ps (of_option (option_map show_N o)) -> at_most m o ->
  option_field is ps (numeral m) o.
Proof.
  intros is ps m o G R. eapply option_printed; [exact G|]. intros x ->. apply numeral_printed, R.
Qed.
Lemma not_eqb_default : forall v d, num_opt v d = None -> v = d.
Proof. intros v d. unfold num_opt. destruct (N.eqb_spec v d); [auto | discriminate]. Qed.
Lemma pairs_nil : forall segs, pairs segs = [] -> Forall (fun s => snd s = None) segs.
Proof.
  induction segs as [|[n o] segs IH]; intro H; [constructor|]. unfold pairs in H. cbn [flat_map snd fst] in H.
  apply app_eq_nil in H. destruct H as [H1 H2]. constructor; [destruct o; [discriminate | reflexivity] | exact (IH H2)].
Qed.
Ltac heads F := repeat match type of F with
  | Forall _ (_ :: _) => let H := fresh "Q" in let T := fresh in
      apply Forall_cons_iff in F; destruct F as [H T]; clear F; rename T into F; cbn [snd] in H
  end.
Lemma fmtp_printed_default : forall p, profile_level_id p <= 16777215 -> rtx p = None -> dtmf_tones p = [] -> encodings p = [] ->
  unknown_tokens p = [] -> pairs (fmtp_segs p) = [] -> p = fmtp_defaults.
Proof.
  intros p R0 R D En U S. apply pairs_nil in S. unfold fmtp_segs in S. heads S.
  repeat match goal with
  | H : num_opt _ _ = None |- _ => apply not_eqb_default in H
  | H : option_map _ ?o = None |- _ => assert (o = None) by (destruct o; [discriminate | reflexivity]); clear H
  | H : flag_opt ?b = None |- _ => assert (b = false) by (destruct b; [discriminate | reflexivity]); clear H
  | H : level_opt ?x = None |- _ => assert (x = 66 * 65536 + 10)
      by (apply level_inj; [assumption|]; unfold level_opt in H; cbv zeta in H;
          destruct (str_eqb (pad0 6 (show_hex x)) (lit "42000a")); [reflexivity | discriminate]); clear H
  end.
  destruct p. cbn in *. subst. reflexivity.
Qed.
Lemma word_hex : forall w n, word (pad0 w (show_hex n)).
Proof.
  intros. apply (word_class hex_char).
  - apply pad0_chars; [reflexivity | apply show_hex_chars].
  - apply pad0_nonempty, show_hex_nonempty.
  - intros c Hc. unfold hex_char in Hc. unfold is_ws. lia.
Qed.
Lemma level_wf : forall (P : str -> Prop) n, P (pad0 6 (show_hex n)) -> option_wf P (level_opt n).
Proof. intros P n H. unfold level_opt. cbv zeta. destruct (str_eqb _ _); [exact I | exact H]. Qed.
Lemma flag_wf : forall (P : str -> Prop) b, P [49] -> option_wf P (flag_opt b).
Proof. intros P [] H; [exact H | exact I]. Qed.
Lemma map_wf : forall (P : str -> Prop) o, (forall n, P (show_N n)) -> option_wf P (option_map show_N o).
Proof. intros P [x|] H; [apply H | exact I]. Qed.
Lemma hex_no : forall c w n, hex_char c = false -> ~ In c (pad0 w (show_hex n)).
Proof.
  intros c w n H K. assert (F : forallb hex_char (pad0 w (show_hex n)) = true) by (apply pad0_chars; [reflexivity | apply show_hex_chars]).
  rewrite forallb_forall in F. specialize (F c K). congruence.
Qed.
Ltac seg_wf tac_num tac_hex :=
  unfold fmtp_segs; repeat (apply Forall_cons; [cbn [fst snd]|]); [..|apply Forall_nil].
Lemma fmtp_list_prints : forall p, fmtp_range p -> rtx p = None -> encodings p = [] -> dtmf_tones p = [] ->
  Forall (unknown_token (fun n => Exists (means_upper n) fmtp_names)) (unknown_tokens p) -> ~ fmtp_lossy p ->
  let t := show_fmtp_params p in ends_solid t /\ fmtp_block_value t p.
Proof.
  intros p (R1 & R2 & R3 & R4 & R5 & R6 & R7 & R8 & R9 & R10 & R11 & R12 & R13 & R14 & R15 & R16 & _ & _) R En D U L t.
  destruct (unknown_pairs _ _ U) as (us & Eu & U1 & U2 & U3).
  assert (Un : Forall (fun t : str => t <> []) (unknown_tokens p)) by (rewrite Eu; apply tok_nonempty).
  assert (Lu : (List.length (unknown_tokens p) <= 1)%nat).
  { destruct (unknown_tokens p) as [|a [|b l]] eqn:K; [cbn; lia | cbn; lia|]. elim L. right. right. left. rewrite K. cbn [List.length]. lia. }
  assert (T : t = join [59] (map tok (pairs (fmtp_segs p) ++ us))).
  { subst t. rewrite fmtp_text by assumption. rewrite map_app, Eu. reflexivity. }
  set (ps := pairs (fmtp_segs p) ++ us) in *.
  assert (Np : ps <> []).
  { intro K. unfold ps in K. apply app_eq_nil in K. destruct K as [K1 K2]. apply L. left.
    apply fmtp_printed_default; try assumption. rewrite Eu, K2. reflexivity. }
  assert (Tn : Forall (fun x => ~ In 59 x) (map tok ps)).
  { unfold ps. rewrite map_app, <- Eu. apply Forall_app. split; [|exact U3]. apply seg_tok_no; [discriminate|].
    unfold fmtp_segs; repeat (apply Forall_cons; [cbn [fst snd]; split; [apply not_in_b; reflexivity|]|]); [..|apply Forall_nil];
      first [apply num_opt_wf, not_in_N; reflexivity | apply level_wf, hex_no; reflexivity
            | apply flag_wf, not_in_b; reflexivity | apply map_wf; intro; apply not_in_N; reflexivity]. }
  split.
  - destruct (exists_last Np) as (l & nv & El). rewrite T, El, map_app. cbn [map]. apply ends_join_last.
    assert (F : Forall ends_solid (map tok ps)).
    { unfold ps. rewrite map_app. apply Forall_app. split.
      - apply seg_ends. unfold fmtp_segs. repeat (apply Forall_cons; [cbn [fst snd]|]); [..|apply Forall_nil];
          first [apply num_opt_wf, word_N | apply level_wf, word_hex | apply flag_wf; wrd | apply map_wf; intro; apply word_N].
      - rewrite <- Eu. apply Forall_forall. intros x Hx. destruct (solid_or_blank x (Forall_in _ _ _ Un Hx)) as [K|K]; [exact K|].
        elim L. right. right. right. apply Exists_exists. eauto. }
    rewrite El, map_app in F. apply Forall_app in F. destruct F as [_ F]. inversion F. assumption.
  - left. split.
    { rewrite T. destruct ps as [|nv ps']; [congruence|]. cbn [map]. rewrite join_leads. apply in_or_app. left.
      unfold tok. apply in_or_app. right. now left. }
    exists (map tok ps). split; [rewrite T; apply fields_join; [destruct ps; [congruence | discriminate] | exact Tn]|].
    assert (Fi : filter (fun x : str => match x with [] => false | _ => true end) (map tok ps) = map tok ps).
    { apply filter_all, forallb_forall. intros x Hx. pose proof (Forall_in _ _ _ (tok_nonempty ps) Hx). destruct x; [congruence | reflexivity]. }
    rewrite Fi. exists ps. split.
    { apply tok_cut. unfold ps. apply Forall_app; split; [|exact U2]. apply seg_fst_no. unfold fmtp_segs.
      repeat (apply Forall_cons; [cbn [fst]; apply not_in_b; reflexivity|]). apply Forall_nil. }
    cbv zeta.
    assert (G : forall n o, In n fmtp_names ->
        flat_map (fun s => if str_eqb (to_upper (fst s)) (of_string n) then of_option (snd s) else []) (fmtp_segs p) = of_option o ++ [] ->
        given (fun x => means_upper x n) ps (of_option o)).
    { intros n o Hn Ho. apply (given_printed _ (fun x => str_eqb (to_upper x) (of_string n))).
      - apply upper_test, fmtp_upper, Hn.
      - rewrite Ho. apply app_nil_r.
      - eapply Forall_impl; [|exact U1]. intros nv H K. apply H, Exists_exists. eauto. }
    assert (G' : forall n o, existsb (String.eqb n) fmtp_names = true ->
        flat_map (fun s => if str_eqb (to_upper (fst s)) (of_string n) then of_option (snd s) else []) (fmtp_segs p) = of_option o ++ [] ->
        given (fun x => means_upper x n) ps (of_option o)).
    { intros n o Hn. apply G. apply existsb_exists in Hn. destruct Hn as (m & Hm & Em). apply String.eqb_eq in Em. subst m. exact Hm. }
    Ltac gv G' := apply G'; [reflexivity | reflexivity].
    split; [apply level_printed; [gv G' | exact R1]|].
    split; [apply num_printed; [gv G' | exact R2]|].
    split; [apply flag_printed; gv G'|].
    split; [apply num_printed; [gv G' | exact R10]|].
    split; [apply num_printed; [gv G' | exact R6]|].
    split; [apply num_printed; [gv G' | exact R7]|].
    split; [apply num_printed; [gv G' | exact R8]|].
    split; [apply num_printed; [gv G' | exact R9]|].
    split; [apply num_printed; [gv G' | exact R11]|].
    split; [apply opt_printed; [gv G' | exact R3]|].
    split; [apply opt_printed; [gv G' | exact R4]|].
    split; [apply opt_printed; [gv G' | exact R5]|].
    split; [apply num_printed; [gv G' | exact R12]|].
    split; [apply num_printed; [gv G' | exact R13]|].
    split; [apply num_printed; [gv G' | exact R14]|].
    split; [apply num_printed; [gv G' | exact R16]|].
    split; [apply num_printed; [gv G' | exact R15]|].
    split; [apply flag_printed; gv G'|].
    split; [apply flag_printed; gv G'|].
    split; [apply flag_printed; gv G'|].
    split; [apply flag_printed; gv G'|].
    split.
    { rewrite R. apply rtx_not. unfold ps. apply Forall_app. split.
      - apply Forall_forall. intros [n v] Hn. unfold pairs in Hn. apply in_flat_map in Hn. destruct Hn as ([n' o] & Hs & Ho).
        destruct o; [|destruct Ho]. destruct Ho as [Ho|[]]. cbn [fst snd] in Ho. inversion Ho; subst. cbn [fst].
        assert (F : Forall (fun s : str * option str => str_eqb (to_upper (fst s)) (of_string "APT") = false /\
                                                        str_eqb (to_upper (fst s)) (of_string "RTX-TIME") = false) (fmtp_segs p)).
        { unfold fmtp_segs. repeat (apply Forall_cons; [split; reflexivity|]). apply Forall_nil. }
        destruct (Forall_in _ _ _ F Hs) as [F1 F2]. cbn [fst] in F1, F2.
        split; (rewrite upper_test by reflexivity); [rewrite F1 | rewrite F2]; discriminate.
      - eapply Forall_impl; [|exact U1]. intros nv H. split; intro K; apply H, Exists_exists; eexists; (split; [|exact K]);
          unfold fmtp_names; cbn [In]; auto 30. }
    split; [exact En|]. split; [exact D|]. exists us. split; [|exact Eu].
    apply others_printed; [|exact U1]. unfold fmtp_segs.
    repeat (apply Forall_cons; [cbn [fst]; apply fmtp_known_iff; reflexivity|]). apply Forall_nil.
Qed.

(** ** apt *)
Definition rtx_segs (r : rtx_params) : list (str * option str) :=
  [(lit "apt", Some (show_N (rtx_apt r))); (lit "rtx-time", option_map show_N (rtx_time r))].
Lemma rtx_prints : forall r, u8 (rtx_apt r) -> at_most u32_max (rtx_time r) ->
  ends_solid (show_rtx r) /\ fmtp_block_value (show_rtx r) (set_rtx (Some r) fmtp_defaults).
Proof.
  intros r R1 R2. set (ps := pairs (rtx_segs r)).
  assert (T : show_rtx r = join [59] (map tok ps)).
  { unfold show_rtx, ps, rtx_segs. destruct (rtx_time r); cbn -[show_N join]; unfold tok; cbn [fst snd].
    - rewrite join_leads. unfold leads. cbn [flat_map]. rewrite app_nil_r. reflexivity.
    - reflexivity. }
  assert (Tn : Forall (fun x => ~ In 59 x) (map tok ps)).
  { apply seg_tok_no; [discriminate|]. unfold rtx_segs.
    fa; cbn [fst snd]; (split; [apply not_in_b; reflexivity|]).
    - cbn [option_wf]. apply not_in_N. reflexivity.
    - apply map_wf. intro. apply not_in_N. reflexivity. }
  assert (Np : map tok ps <> []) by (unfold ps, rtx_segs; destruct (rtx_time r); discriminate).
  split.
  - rewrite T. destruct (exists_last Np) as (l & x & El). rewrite El. apply ends_join_last.
    assert (F : Forall ends_solid (map tok ps)).
    { apply seg_ends. unfold rtx_segs. fa; cbn [snd]; [apply word_N | apply map_wf, word_N]. }
    rewrite El in F. apply Forall_app in F. destruct F as [_ F]. inversion F. assumption.
  - left. split.
    { unfold show_rtx. destruct (rtx_time r); cbn -[show_N]; auto 10. }
    exists (map tok ps). split; [rewrite T; apply fields_join; assumption|].
    assert (Fi : filter (fun x : str => match x with [] => false | _ => true end) (map tok ps) = map tok ps).
    { apply filter_all, forallb_forall. intros x Hx. pose proof (Forall_in _ _ _ (tok_nonempty ps) Hx). destruct x; [congruence | reflexivity]. }
    rewrite Fi. exists ps. split.
    { apply tok_cut. apply seg_fst_no. unfold rtx_segs. fa; cbn [fst]; apply not_in_b; reflexivity. }
    cbv zeta.
    assert (G : forall n, upper_word (of_string n) && negb (str_eqb (of_string "APT") (of_string n)) &&
                          negb (str_eqb (of_string "RTX-TIME") (of_string n)) = true ->
        given (fun x => means_upper x n) ps []).
    { intros n Hn. apply andb_prop in Hn. destruct Hn as [Hn H3]. apply andb_prop in Hn. destruct Hn as [H1 H2].
      pose proof (given_pairs _ _ (upper_test n H1) (rtx_segs r)) as K. unfold rtx_segs in K at 2. cbn [flat_map fst] in K.
      change (to_upper (lit "apt")) with (of_string "APT") in K. change (to_upper (lit "rtx-time")) with (of_string "RTX-TIME") in K.
      destruct (str_eqb (of_string "APT") (of_string n)); [discriminate|].
      destruct (str_eqb (of_string "RTX-TIME") (of_string n)); [discriminate|]. exact K. }
    assert (D : forall {A} n (reads : str -> A -> Prop) d, upper_word (of_string n) && negb (str_eqb (of_string "APT") (of_string n)) &&
                          negb (str_eqb (of_string "RTX-TIME") (of_string n)) = true -> field_of (fun x => means_upper x n) ps reads d d).
    { intros A n reads d H. apply (field_printed _ _ _ _ _ None); [exact (G n H) | reflexivity]. }
    do 21 (split; [apply D; reflexivity|]). split.
    { unfold ps, rtx_segs. cbn [set_rtx rtx fmtp_defaults].
      assert (V : rtx_value [(lit "apt", show_N (rtx_apt r))] (Some {| rtx_apt := rtx_apt r; rtx_time := None |})).
      { apply (rtx_apt_ [] None); [constructor | apply means_upper_iff; reflexivity | apply numeral_printed, R1]. }
      destruct r as [a [x|]]; cbn [rtx_apt rtx_time option_map pairs flat_map snd fst app] in *; [|exact V].
      apply (rtx_time_ [(lit "apt", show_N a)] _ _ _ _ V); [apply means_upper_iff; reflexivity | apply numeral_printed, R2]. }
    split; [reflexivity|]. split; [reflexivity|]. exists []. split; [|reflexivity].
    rewrite <- (app_nil_r ps). apply others_printed; [|constructor]. unfold rtx_segs.
    fa; cbn [fst]; apply fmtp_known_iff; reflexivity.
Qed.

(** ** Encodings and telephone events *)
Lemma encodings_print : forall l, (2 <= List.length l)%nat -> Forall (fun n => n <= 128) l ->
  ends_solid (join [47] (map show_N l)) /\ fmtp_block_value (join [47] (map show_N l)) (set_encodings l fmtp_defaults).
Proof.
  intros l L F. assert (N0 : l <> []) by (intros ->; cbn in L; lia). split.
  - destruct (exists_last N0) as (x & y & ->). rewrite map_app. apply ends_join_last, word_ends, word_N.
  - right. left. split; [|split].
    + apply join_no; [intros [K|[]]; discriminate|]. apply Forall_forall. intros t Ht. apply in_map_iff in Ht.
      destruct Ht as (n & <- & _). apply not_in_N. reflexivity.
    + destruct l as [|a [|b l]]; [congruence | cbn in L; lia|]. cbn [map]. rewrite join_leads. apply in_or_app. right. now left.
    + exists (map show_N l). split; [apply fields_join|].
      * destruct l; [congruence | discriminate].
      * apply Forall_forall. intros t Ht. apply in_map_iff in Ht. destruct Ht as (n & <- & _). apply not_in_N. reflexivity.
      * split; [|reflexivity]. cbn [set_encodings encodings]. clear -F. induction F as [|n l H F IH]; [constructor|].
        cbn [map]. constructor; [apply numeral_printed, H | exact IH].
Qed.
Lemma tone_text : forall t, tone t -> word t /\ ~ In 61 t /\ ~ In 47 t.
Proof.
  intros t Ht.
  assert (C : (forall c, In c t -> (48 <= c <= 57) \/ c = 43 \/ c = 45) /\ t <> []).
  { destruct Ht as [(n & H)|(a & b & x & y & [-> _] & H1 & H2 & _)]; split.
    - intros c Hc. destruct (numeral_chars _ _ _ H _ Hc) as [K|K]; [left; exact K | auto].
    - intros ->. exact (numeral_nonempty _ _ H).
    - intros c Hc. apply in_app_or in Hc. destruct Hc as [Hc|[Hc|Hc]]; [|auto|].
      + destruct (numeral_chars _ _ _ H1 _ Hc) as [K|K]; [left; exact K | auto].
      + destruct (numeral_chars _ _ _ H2 _ Hc) as [K|K]; [left; exact K | auto].
    - intro K. apply app_eq_nil in K. destruct K. discriminate. }
  destruct C as [C Nt]. split; [split; [exact Nt|]|split].
  - apply Forall_forall. intros c Hc. specialize (C c Hc). unfold is_ws. lia.
  - intro K. specialize (C _ K). lia.
  - intro K. specialize (C _ K). lia.
Qed.
Lemma fields_join_inv : forall c s l, fields c s l -> s = join [c] l /\ l <> [].
Proof.
  intros c s l F. induction F as [s N|t s l N F [-> K]]; split; try discriminate; [reflexivity|].
  rewrite join_cons by exact K. reflexivity.
Qed.
Lemma tones_text : forall t, tones t -> word t /\ ~ In 61 t /\ ~ In 47 t.
Proof.
  intros t (ts & F & H). apply fields_join_inv in F. destruct F as [-> N0].
  assert (F : forall P : str -> Prop, (forall x, tone x -> P x) -> Forall P ts).
  { intros P Q. eapply Forall_impl; [|exact H]. exact Q. }
  split; [split|split].
  - apply join_nonempty; [exact N0|]. apply F. intros x Hx. apply (tone_text x Hx).
  - apply join_no_blank; [constructor; [reflexivity | constructor]|]. apply F. intros x Hx. apply (tone_text x Hx).
  - apply join_no; [intros [K|[]]; discriminate|]. apply F. intros x Hx. apply (tone_text x Hx).
  - apply join_no; [intros [K|[]]; discriminate|]. apply F. intros x Hx. apply (tone_text x Hx).
Qed.

Section WithExt.
Context {E : Ext}.
Lemma fmtp_prints : forall f, attr_range (AFmtp f) -> attr_wf (AFmtp f) -> ~ fmtp_lossy (fmtp_parameters f) ->
  prints (AFmtp f) (show_fmtp f).
Proof.
  intros f [R0 R] W L. set (p := fmtp_parameters f) in *.
  assert (K : ends_solid (show_fmtp_params p) /\ fmtp_block_value (show_fmtp_params p) p).
  { destruct (rtx p) as [r|] eqn:Kr.
    - destruct (fmtp_params_dec p (set_rtx (Some r) fmtp_defaults)) as [Ed|Ed]; [|elim L; right; left; eauto].
      unfold show_fmtp_params. rewrite Kr. rewrite Ed.
      destruct R as (_ & _ & _ & _ & _ & _ & _ & _ & _ & _ & _ & _ & _ & _ & _ & _ & _ & Rr). rewrite Kr in Rr.
      apply rtx_prints; apply Rr.
    - destruct W as [(W1 & W2 & W3)|[[W1 W2]|[W1 W2]]].
      + apply fmtp_list_prints; assumption.
      + assert (Et : show_fmtp_params p = join [47] (map show_N (encodings p))).
        { unfold show_fmtp_params. rewrite Kr. fold p in W1, W2.
          assert (D : dtmf_tones p = []) by (rewrite W2; reflexivity). rewrite D. cbn [non_empty is_empty negb].
          destruct (encodings p); [cbn in W1; lia | reflexivity]. }
        rewrite Et. fold p in W1, W2. rewrite W2 at 3. apply encodings_print; [exact W1|].
        apply R.
      + fold p in W1, W2. destruct (tones_text _ W1) as (T1 & T2 & T3).
        assert (Et : show_fmtp_params p = dtmf_tones p).
        { unfold show_fmtp_params. rewrite Kr. unfold non_empty. rewrite (proj2 (is_empty_false _) (proj1 T1)). reflexivity. }
        rewrite Et. split; [apply word_ends, T1|]. right. right. split; [exact T2|]. split; [exact T3|].
        split; [exact W2|]. left. split; [exact W1 | reflexivity]. }
  destruct K as [K1 K2].
  assert (T : show_fmtp f = show_N (fmtp_payload_type f) ++ 32 :: show_fmtp_params p).
  { unfold show_fmtp. fold p. rewrite (proj2 (is_empty_false _) (ends_nonempty _ K1)). reflexivity. }
  assert (Es : ends_solid (show_fmtp f)) by (rewrite T; apply ends_app, ends_cons, K1).
  eapply prints_intro; [reflexivity | reflexivity | exact Es|].
  exists (show_fmtp f), (show_N (fmtp_payload_type f)), (show_fmtp_params p). split; [|split; [|split]].
  - apply core_self; [|exact Es]. rewrite T. apply starts_app, word_starts, word_N.
  - split; [exact T | apply not_in_N; reflexivity].
  - apply numeral_printed, R0.
  - exact K2.
Qed.
End WithExt.

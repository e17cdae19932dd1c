(** * Why attributes are refused: other attributes (proofs for C69) *)
From Coq Require Import List NArith ZArith Bool Ascii String Lia.
From Coq Require Import ZifyBool ZifyNat ZifyN.
From Verif Require Import Str Num Net Types Ext Show Address AttrParse Media Session.
From Verif Require Import StrLemmas NumLemmas NetLemmas.
From Verif Require Import SpecApi SpecDoc SpecVal SpecUnsup SpecWarn SpecWhy SpecCause PPanic PDoc PDoc2 PDoc3 PDoc4.
From Verif Require Import PVal PVal2 PVal3 PVal4 PVal5 PVal6 PVal7 PVal8 PVal9 PWarn PWhy PCause PCause2 PCause3.
Import ListNotations.
Open Scope N_scope.
Open Scope list_scope.

Ltac says := match goal with |- kept (Err ?x) (all (say ?p ?t :: ?cs)) => change (kept (@Err ierr attr (EGeneric t)) (all (say p t :: cs))) end;
  apply k_say_err; [|reflexivity].

Section WithExt.
Context {E : Ext}.

Lemma dtls_kept : forall v, kept (parse_dtls_message v) (dtls_rule v).
Proof.
  intro v. unfold parse_dtls_message, dtls_rule. apply k_fields. cbv zeta. change 32 with c_space.
  destruct (split c_space v) as [|w0 [|w1 [|w2 ws]]]; cbn [List.length Nat.eqb negb]; try missing.
  there. here. cbn [idx nth_error bind]. unfold is_word.
  destruct (str_eqb_spec w0 (lit "client")) as [Q|Q]; [apply k_say_ok; [left; exact Q | apply k_nil]|].
  destruct (str_eqb_spec w0 (lit "server")) as [R|R]; [apply k_say_ok; [right; exact R | apply k_nil]|].
  says. intros [X|X]; contradiction.
Qed.
Lemma sctp_port_kept : forall v, kept (parse_sctp_port v) (sctp_port_rule v).
Proof.
  intro v. unfold parse_sctp_port, sctp_port_rule. apply k_bind; [apply number_kept|].
  intros n Hn. apply number_is in Hn. apply k_one.
  assert (U : forall x, numeral u64_max v x -> x = n).
  { intros x X. apply number_is in X, Hn. congruence. }
  destruct (N.ltb_spec 65535 n) as [L|L]; split; cbn [fst snd].
  - split; [|intros (a & X); discriminate]. intros (x & X & K). apply U in X. subst x. lia.
  - intros e _. split.
    + intros (x & d & X & _ & D & ->). apply U in X. subst x. apply decimal_iff in D. subst d. reflexivity.
    + intro H. exists n. eexists. split; [exact Hn|]. split; [exact L|]. split; [apply decimal_iff; reflexivity|].
      match type of H with Err ?m = Err _ => assert (Q : e = m) by congruence end. rewrite Q. reflexivity.
  - split; eauto.
  - intros e _. split; [|discriminate]. intros (x & d & X & K & _). apply U in X. subst x. lia.
Qed.
Lemma framerate_kept : forall v, kept (parse_framerate v) (framerate_rule v).
Proof.
  intro v. unfold parse_framerate, framerate_rule. cbv zeta. apply k_bind; [apply float64_kept|].
  intros f Hf. assert (P : parse_f64 v = Ok f) by (revert Hf; unfold p_f64; destruct (parse_f64 v); cbn [res_map_err]; congruence).
  assert (B : forall p : f64 -> bool, p f = false <-> exists x, parse_f64 v = Ok x /\ p x = false).
  { intro p. split; [eauto|]. intros (x & X & H). assert (x = f) by congruence. subst x. exact H. }
  apply k_must; [apply B | reflexivity |]. intros _.
  apply k_must; [apply B | reflexivity |]. intros _.
  apply k_must; [apply B | reflexivity |]. intros _. apply k_nil.
Qed.
Lemma trr_int_kept : forall o, kept (rtcp_fb_parameter FbTrrInt o) (trr_int o).
Proof.
  intros [x|]; cbn [rtcp_fb_parameter trr_int].
  - unfold say_quoted. assert (I : is_ok (parse_u32 x) = true <-> exists n, numeral u32_max x n).
    { setoid_rewrite numeral_iff. unfold is_ok, parse_u32. destruct (parse_uint 10 u32_max x) as [n|e|]; split.
      - eauto. - reflexivity. - discriminate. - intros (n & H); discriminate. - discriminate. - intros (n & H); discriminate. }
    destruct (is_ok _); split; cbn [fst snd].
    + split; [eauto | intros _; apply I; reflexivity].
    + intros e _. split; [|discriminate]. intros [X _]. destruct X. apply I. reflexivity.
    + split; [intro X; apply I in X; discriminate | intros (a & X); discriminate].
    + intros e _. setoid_rewrite quotes_debug. split.
      * intros (_ & q & -> & ->). reflexivity.
      * intro H. split; [intro X; apply I in X; discriminate|]. eexists. split; [reflexivity|].
        match type of H with Err ?m = Err _ => assert (Q : e = m) by congruence end. rewrite Q. reflexivity.
  - apply k_single, k_must_err; [tauto | reflexivity].
Qed.
Lemma fb_known : forall k o, k <> FbTrrInt -> forall e, rtcp_fb_parameter k o = Err e -> exists m, e = EUnsupported m.
Proof.
  intros k o N e. destruct k; [| | |congruence| |]; destruct o as [x|]; cbn [rtcp_fb_parameter];
    try destruct (mem_str _ _); intro H; try discriminate H;
    match type of H with Err ?m = Err _ => assert (Q : e = m) by congruence end; rewrite Q; eexists; reflexivity.
Qed.
Lemma fb_total : forall k o, rtcp_fb_parameter k o <> Panic.
Proof.
  intros k o. destruct k; destruct o as [x|]; cbn [rtcp_fb_parameter];
    try destruct (mem_str _ _); try destruct (is_ok _); discriminate.
Qed.
Lemma rtcp_fb_kept : forall v, kept (parse_rtcp_fb v) (rtcp_fb_rule v).
Proof.
  intro v. unfold parse_rtcp_fb, rtcp_fb_rule. cbv zeta. apply k_parts. change 32 with c_space.
  set (fs := splitn 4 c_space v). unfold rtcp_fb_rules.
  assert (H0 : exists w, nth_error fs 0 = Some w).
  { unfold fs. cbn [splitn]. destruct (split_once c_space v) as [[a b]|]; cbn [nth_error]; eauto. }
  destruct H0 as (w0 & H0).
  destruct (nth_error fs 1) as [w|] eqn:H1.
  2: { cbn [bind]. apply k_must_err; [|reflexivity]. apply Nat.le_ngt. apply nth_error_None, H1. }
  apply k_must_ok; [apply nth_error_Some; congruence|].
  eapply k_about; [exact H1|]. pose proof (fb_type_iff w) as I. destruct (assoc_str _ _) as [k|].
  2: { apply k_known_err. intros (k & K). apply I in K. discriminate. }
  assert (Ik : is_word w (fb_name k)) by (apply I; reflexivity).
  assert (Uk : forall k', is_word w (fb_name k') -> k' = k) by (intros k' K; apply I in K; congruence).
  apply k_known_ok; [eauto|]. cbn [bind].
  assert (Last : forall p, kept (t0 <- idx fs 0 ;; pt <- parse_payload_type t0 ;;
     Ok (ARtcpfb {| fb_payload_type := pt; fb_feedback_type := k; fb_parameter := p;
                 fb_extra := match nth_error fs 3 with Some x => x | None => [] end |})) (all [about fs 0 payload])).
  { intro p. eapply k_about; [exact H0|]. unfold idx. rewrite H0. cbn [bind].
    apply k_bind; [apply payload_kept|]. intros pt _. apply k_nil. }
  assert (D : k = FbTrrInt \/ k <> FbTrrInt) by (destruct k; (left; reflexivity) || (right; discriminate)).
  destruct D as [->|D].
  - eapply k_about; [exact H1|]. apply k_when; [exact Ik|]. apply k_bind; [apply trr_int_kept|].
    intros p _. eapply k_about; [exact H1|]. apply k_when_no; [intro X; contradiction|]. apply Last.
  - assert (N : ~ is_word w (fb_name FbTrrInt)) by (intro X; apply Uk in X; congruence).
    eapply k_about; [exact H1|]. apply k_when_no; [exact N|].
    eapply k_about; [exact H1|]. apply k_when; [exact N|].
    pose proof (fb_parameter_iff k (nth_error fs 2)) as F. pose proof (fb_known k (nth_error fs 2) D) as G.
    pose proof (fb_total k (nth_error fs 2)) as T.
    destruct (rtcp_fb_parameter k (nth_error fs 2)) as [p|x|]; cbn [bind]; [| |congruence].
    + apply k_known_ok; [|apply Last]. exists k. split; [exact Ik|]. destruct (F p) as [F1 _]. apply F1. reflexivity.
    + destruct (G x eq_refl) as (m & ->). apply k_known_err. intros (k' & K & O). apply Uk in K. subst k'.
      assert (X := proj2 (F _) (conj O eq_refl)). discriminate.
Qed.

(** ** fmtp *)
Lemma flag_kept : forall name v, kept (fmtp_parse_bool v (of_string name)) (fmtp_flag name v).
Proof.
  intros name v. unfold fmtp_parse_bool, fmtp_flag. apply k_bind; [apply number_kept|].
  intros n Hn. apply number_is in Hn.
  assert (U : forall x, numeral u8_max v x -> x = n).
  { intros x X. apply number_is in X, Hn. congruence. }
  destruct (N.eqb_spec n 0) as [Q|Q]; [apply k_say_ok; [exists n; split; [exact Hn | lia] | apply k_nil]|].
  destruct (N.eqb_spec n 1) as [R|R]; [apply k_say_ok; [exists n; split; [exact Hn | lia] | apply k_nil]|].
  match goal with |- kept (Err ?x) (all (say ?p ?t :: ?cs)) => change (kept (@Err ierr bool (EGeneric t)) (all (say p t :: cs))) end.
  apply k_say_err; [|reflexivity]. intros (x & X & L). apply U in X. lia.
Qed.
Lemma fmtp_names : forall p t p', fmtp_parameter p t = Ok p' ->
  (rtx p' <> None <-> rtx p <> None \/ exists n x, cut 61 t n x /\ means_upper n "APT").
Proof.
  intros p t p'. unfold fmtp_parameter.
  destruct (cut_cases c_eq t) as [[C S]|(a & b & C & K & S & _)]; rewrite S; cbv zeta; [discriminate|].
  assert (A : (exists n x, cut 61 t n x /\ means_upper n "APT") <-> to_upper a = lit "APT").
  { split.
    - intros (n & x & K' & M). destruct (cut_fun _ _ _ _ _ _ K K') as [<- <-]. apply means_upper_iff in M; [exact M | reflexivity].
    - intro M. exists a, b. split; [exact K|]. apply means_upper_iff; [reflexivity | exact M]. }
  rewrite A. clear A. generalize (to_upper a). intro u.
  assert (Same : forall q, rtx q = rtx p -> u <> lit "APT" -> (rtx q <> None <-> rtx p <> None \/ u = lit "APT")).
  { intros q -> N. tauto. }
  assert (Step : forall w (x y : res ierr fmtp_params), (u = w -> x = Ok p' -> rtx p' <> None <-> rtx p <> None \/ u = lit "APT") ->
    (u <> w -> y = Ok p' -> rtx p' <> None <-> rtx p <> None \/ u = lit "APT") ->
    (if str_eqb u w then x else y) = Ok p' -> rtx p' <> None <-> rtx p <> None \/ u = lit "APT").
  { intros w x y H1 H2. destruct (str_eqb_spec u w); auto. }
  assert (Num : forall B (r : res ierr B) (g : B -> fmtp_params), (forall b, rtx (g b) = rtx p) -> u <> lit "APT" ->
    bind r (fun b => Ok (g b)) = Ok p' -> rtx p' <> None <-> rtx p <> None \/ u = lit "APT").
  { intros B r g G N H. destruct r as [z| |]; cbn [bind] in H; try discriminate. inv H. apply Same; auto. }
  assert (Num2 : forall B C (r : res ierr B) (s : B -> res ierr C) (g : C -> fmtp_params), (forall b, rtx (g b) = rtx p) -> u <> lit "APT" ->
    bind r (fun b => bind (s b) (fun c => Ok (g c))) = Ok p' -> rtx p' <> None <-> rtx p <> None \/ u = lit "APT").
  { intros B C' r s g G N H. destruct r as [z| |]; cbn [bind] in H; try discriminate. exact (Num _ _ _ G N H). }
  repeat match goal with |- (if _ then _ else _) = _ -> _ =>
    refine (Step _ _ _ _ _); [intro Q; try (assert (N : u <> lit "APT") by (rewrite Q; discriminate)) | let z := fresh "Z" in intro z]
  end.
  all: try (refine (Num _ _ _ _ _); [intro; reflexivity | exact N]).
  all: try (refine (Num2 _ _ _ _ _ _ _); [intro; reflexivity | exact N]).
  - intro H. destruct (p_u8 b); cbn [bind] in H; inv H. cbn [rtx set_rtx]. split; [tauto | discriminate].
  - intro H. destruct (rtx p) as [r|]; [|discriminate]. destruct (p_u32 b); cbn [bind] in H; inv H. cbn [rtx set_rtx].
    split; [intros _; left; discriminate | discriminate].
  - intro H. inv H. apply Same; [reflexivity | assumption].
Qed.
Lemma fmtp_parameter_kept : forall seen p t,
  (rtx p <> None <-> exists t n x, In t seen /\ cut 61 t n x /\ means_upper n "APT") ->
  kept (fmtp_parameter p t) (fmtp_parameter_rule seen t).
Proof.
  intros seen p t I. unfold fmtp_parameter, fmtp_parameter_rule.
  destruct (cut_cases c_eq t) as [[C S]|(a & b & C & K & S & _)]; rewrite S; cbv zeta.
  { apply k_must_err; [apply contains_not_In, C | reflexivity]. }
  apply k_must_ok; [apply contains_In, C|]. eapply k_at_cut; [exact K|]. apply k_one. unfold fmtp_table.
  apply k_upper; [reflexivity | reflexivity | |].
  { apply k_bind; [apply hex_kept|]. intros n Hn. apply hex_is in Hn.
    assert (U : forall x, hex_numeral u32_max b x -> x = n) by (intros x X; apply hex_is in X, Hn; congruence).
    unfold up_to. destruct (N.leb_spec n 16777215) as [L|L]; cbn [bind].
    - apply k_must_ok; [eauto | apply k_nil].
    - apply k_must_err; [|reflexivity]. intros (x & X & L'). apply U in X. lia. }
  do 23 (try (apply k_upper; [reflexivity | reflexivity | |];
    [first [ apply k_map, number_kept | apply k_map, flag_kept
           | apply k_single, k_up_to; [reflexivity | intro; apply k_nil] ]|])).
  apply k_upper; [reflexivity | reflexivity | |].
  { destruct (rtx p) as [r|].
    - apply k_must_ok; [apply I; discriminate|]. apply k_one, k_map, number_kept.
    - apply k_must_err; [|reflexivity]. intro X. apply I in X. congruence. }
  apply k_no_name.
Qed.
Lemma fmtp_block_kept : forall b, kept (fmtp_block default_fmtp_params b) (fmtp_block_rule b).
Proof.
  intro b. unfold fmtp_block, fmtp_block_rule. change c_eq with 61. change c_slash with 47.
  destruct (contains 61 b) eqn:C.
  - assert (I : In 61 b) by (apply contains_In, C). apply k_when; [exact I|].
    assert (J : forall A (x : res ierr A) c, kept x c -> kept x (all [c; when (~ In 61 b /\ In 47 b)
      (in_fields 47 b (each (small_number u8_max 128 "Red codec must be in range [0,128]")))])).
    { intros A x c Kc. eapply kept_same; [|apply k_one, Kc].
      destruct (all_one c) as [A1 A2]. split.
      - rewrite !all_fst. cbn [when fst]. split; [tauto|]. intros [X _]. split; [exact X|]. split; [tauto | constructor].
      - intro e. rewrite !all_snd. cbn [when fst snd all]. split.
        + intros [X|[X [[[Y _] _]|[_ Z]]]]; [auto | contradiction | destruct (broken_nil _ Z)].
        + intros [X|[_ Z]]; [auto | destruct (broken_nil _ Z)]. }
    apply J. apply k_fields.
    rewrite (filter_ext _ non_empty (fun x : str => match x return (match x with [] => false | _ => true end = non_empty x) with [] => eq_refl | _ :: _ => eq_refl end)).
    apply (k_running _ _ (fun seen p => rtx p <> None <-> exists t n x, In t seen /\ cut 61 t n x /\ means_upper n "APT")).
    + intros seen a x H. apply fmtp_parameter_kept, H.
    + intros seen a x q H Hq. rewrite (fmtp_names _ _ _ Hq), H. setoid_rewrite in_app_iff. split.
      * intros [(t & n & y & T & R)|(n & y & R)]; [exists t, n, y; auto | exists x, n, y; cbn [In]; auto].
      * intros (t & n & y & [T|[T|[]]] & R); [left; eauto 6 | subst; right; eauto].
    + cbn [rtx default_fmtp_params]. split; [congruence | intros (t & n & x & [] & _)].
  - apply contains_not_In in C. apply k_when_no; [exact C|]. destruct (contains 47 b) eqn:D.
    + apply k_when; [split; [exact C | apply contains_In, D]|]. apply k_one, k_fields, k_foldM.
      intros p x _. apply k_single, k_up_to; [reflexivity | intro; apply k_nil].
    + apply contains_not_In in D. apply k_when_no; [tauto | apply k_nil].
Qed.
Lemma fmtp_kept : forall v, kept (parse_fmtp v) (fmtp_rule v).
Proof.
  intro v. unfold parse_fmtp, fmtp_rule. cbv zeta. change 32 with c_space.
  destruct (cut_cases c_space v) as [[C S]|(a & b & C & K & S & l & F)]; rewrite S; cbn [List.length Nat.eqb negb].
  - apply k_known_err. apply contains_not_In, C.
  - apply k_known_ok; [apply contains_In, C|]. eapply k_at_cut; [exact K|].
    cbn [idx nth_error bind skipn foldM]. rewrite bind_assoc. apply k_bind; [apply fmtp_block_kept|].
    intros p _. cbn [bind]. eapply k_before; [exact F|]. apply k_bind; [apply number_kept|]. intros n _. apply k_nil.
Qed.

(** ** rid *)
Lemma rid_parameter_kept : forall a t, kept (rid_parameter a t) (rid_parameter_rule t).
Proof.
  intros [p ds] t. unfold rid_parameter, rid_parameter_rule.
  destruct (cut_cases c_eq t) as [[C S]|(a & b & C & K & S & _)]; rewrite S.
  { apply k_must_err; [apply contains_not_In, C | reflexivity]. }
  apply k_must_ok; [apply contains_In, C|]. eapply k_at_cut; [exact K|]. apply k_one.
  do 6 (apply k_word; [reflexivity | apply k_map, number_kept|]).
  destruct (str_eqb _ _); apply k_no_name.
Qed.
Lemma strip_cases : forall p s, (exists x, s = p ++ x /\ strip_prefix p s = Some x) \/
  ((forall x, s <> p ++ x) /\ strip_prefix p s = None).
Proof.
  induction p as [|c p IH]; intro s; cbn [strip_prefix]; [left; exists s; auto|].
  destruct s as [|d s]; [right; split; [discriminate | reflexivity]|].
  destruct (N.eqb_spec c d) as [->|N]; [|right; split; [intros x H; injection H; congruence | reflexivity]].
  destruct (IH s) as [(x & -> & H)|[H1 H2]]; [left; exists x; auto|].
  right. split; [intros x H; injection H; intro X; exact (H1 _ X) | exact H2].
Qed.
Lemma rid_kept : forall v, kept (parse_rid v) (rid_rule v).
Proof.
  intro v. unfold parse_rid, rid_rule. cbv zeta. apply k_parts. change 32 with c_space.
  assert (L : (List.length (splitn 3 c_space v) <= 3)%nat).
  { cbn [splitn]. destruct (split_once c_space v) as [[a b]|]; [|cbn; lia].
    destruct (split_once c_space b) as [[a' b']|]; cbn; lia. }
  destruct (splitn 3 c_space v) as [|f0 [|f1 fs]]; try missing. there.
  replace (Nat.ltb _ 2) with false by (symmetry; apply Nat.ltb_ge; cbn [List.length]; lia).
  assert (Last : forall x, kept (' (formats, params, depends) <- Ok x ;;
    t0 <- idx (f0 :: f1 :: fs) 0 ;; t1 <- idx (f0 :: f1 :: fs) 1 ;;
    dir <- parse_single_direction t1 ;;
    Ok (ARid {| rid_id := t0; rid_direction := dir; rid_formats := formats;
                rid_params_of := params; rid_depends := depends |})) (all [about (f0 :: f1 :: fs) 1 direction_word])).
  { intros [[a b] c]. here. cbn [idx nth_error bind]. apply k_bind; [apply direction_word_kept|]. intros d _. apply k_nil. }
  destruct fs as [|f2 fs].
  - cbn [nth_error]. apply k_when_no; [cbn [List.length]; lia|]. apply Last.
  - cbn [nth_error]. apply k_when; [cbn [List.length]; lia|]. here. apply k_bind; [|intros x _; apply (Last x)].
    unfold rid_parameters_rule. apply k_fields. change 59 with c_semi.
    destruct (split c_semi f2) as [|p ps] eqn:S; [destruct (split_nonempty _ _ S)|]. here. cbn [nth_error tl].
    destruct (strip_cases (lit "pt=") p) as [(x & Q & R)|[Q R]]; rewrite R.
    + eapply k_head; [eapply prefix_at, Q|]. rewrite bind_assoc. apply k_bind.
      * apply k_fields, k_mapM. intros t _. eapply kept_same; [apply trimmed_at|]. apply number_kept.
      * intros l _. cbn [bind]. apply k_when; [exists x; congruence|].
        apply k_bind; [apply k_foldM; intros; apply rid_parameter_kept|]. intros [q ds] _.
        apply k_when_no; [|apply k_nil]. intro X. apply X. exists x. congruence.
    + apply k_skip; [apply prefix_none, Q|]. cbn [bind].
      assert (X : ~ exists x, Some p = Some (lit "pt=" ++ x)) by (intros (x & X); injection X; apply Q).
      apply k_when_no; [exact X|]. apply k_when; [exact X|].
      apply k_bind; [apply k_foldM; intros; apply rid_parameter_kept|]. intros [q ds] _. apply k_nil.
Qed.
End WithExt.

(** * Why attributes are refused: imageattr (proofs for C69) *)
From Coq Require Import List NArith ZArith Bool Ascii String Lia.
From Coq Require Import ZifyBool ZifyNat ZifyN.
From Verif Require Import Str Num Net Types Ext Show Address AttrParse Media Session.
From Verif Require Import StrLemmas NumLemmas NetLemmas.
From Verif Require Import SpecApi SpecDoc SpecVal SpecUnsup SpecWarn SpecWhy SpecCause PPanic PDoc PDoc2 PDoc3 PDoc4.
From Verif Require Import PVal PVal2 PVal3 PVal4 PVal5 PVal6 PVal7 PVal8 PVal9 PWarn PWhy PCause PCause2 PCause3 PCause4.
Import ListNotations.
Open Scope N_scope.
Open Scope list_scope.

Section WithExt.
Context {E : Ext}.

Lemma braced_cases : forall s err, (exists i, braced_token s err = Ok i /\ braced s i) \/
  (braced_token s err = Err err /\ ~ exists i, braced s i).
Proof.
  intros s err. destruct (braced_token s err) as [i|x|] eqn:B.
  - left. exists i. split; [reflexivity | apply braced_iff in B; exact B].
  - right. split.
    + revert B. unfold braced_token, slice_inner. destruct (starts_with_char c_lbr s); cbn [negb]; [|congruence].
      destruct (ends_with_char c_rbr s); cbn [negb]; [|congruence].
      destruct s as [|y s]; [discriminate|]. destruct (rev s); discriminate.
    + intros (i & K). apply (proj2 (braced_iff s err i)) in K. congruence.
  - exfalso. revert B. unfold braced_token. destruct (starts_with_char c_lbr s) eqn:H1; cbn [negb]; [|discriminate].
    destruct (ends_with_char c_rbr s) eqn:H2; cbn [negb]; [|discriminate].
    destruct s as [|y s]; [discriminate|]. cbn [slice_inner]. destruct s as [|z s] using rev_ind.
    + intros _. cbn in H1, H2. apply N.eqb_eq in H1. subst y. discriminate H2.
    + rewrite rev_app_distr. discriminate.
Qed.
Lemma k_enclosed : forall {A} s m t (f : str -> res ierr A) (r : str -> rule), m = of_string t ->
  (forall i, braced s i -> kept (f i) (r i)) ->
  kept (bind (braced_token s (EGeneric m)) f) (enclosed s t r).
Proof.
  intros A s m t f r M K. unfold enclosed. destruct (braced_cases s (EGeneric m)) as [(i & -> & B)|[-> N]]; cbn [bind].
  - apply k_must_ok; [eauto|]. apply k_one.
    assert (U : forall j, braced s j -> j = i).
    { intros j J. unfold braced in *. rewrite J in B. apply app_inv_head in B. apply app_inv_tail in B. exact B. }
    destruct (K i B) as [K1 K2]. split; cbn [fst snd].
    + rewrite <- K1. split; [eauto|]. intros H j J. apply U in J. subst j. exact H.
    + intros e He. rewrite <- (K2 e He). split; [|eauto]. intros (j & J & H). apply U in J. subst j. exact H.
  - apply k_must_err; [exact N | exact M].
Qed.
Lemma opens_iff : forall s, starts_with_char c_lbr s = true <-> opens s.
Proof. intro s. apply starts_iff. Qed.
Lemma k_done : forall {A} (x : res ierr A) c d, kept x c -> same d no_rule -> kept x (all [c; d]).
Proof.
  intros A x c d [K1 K2] [S1 S2]. split.
  - rewrite !all_fst, S1, <- K1. cbn [no_rule all fst]. split; [tauto | intro H; split; [exact H | split; [exact I | constructor]]].
  - intros e He. rewrite !all_snd, S1, S2, <- (K2 e He). cbn [no_rule all fst snd]. split; [|tauto].
    intros [H|[_ [[]|[_ H]]]]; [exact H | destruct (broken_nil _ H)].
Qed.
Lemma xy_kept : forall s, kept (parse_xyrange s) (xy_rule s).
Proof.
  intro s. unfold parse_xyrange, xy_rule. destruct (starts_with_char c_lbr s) eqn:O.
  - apply opens_iff in O. apply k_when_no; [tauto|]. apply k_when; [exact O|]. apply k_one, k_enclosed; [reflexivity|].
    intros i B. rewrite (braced_contains _ _ c_colon B) by discriminate. change c_colon with 58. destruct (contains 58 i) eqn:C.
    + apply contains_In in C. apply k_when; [exact C|]. apply k_done; [|apply when_no; tauto]. apply k_fields.
      destruct (split 58 i) as [|a [|b [|c [|d fs]]]]; try (apply k_must_err; [cbn [List.length]; lia | reflexivity]);
        (apply k_must_ok; [cbn [List.length]; lia|]); here; (apply k_bind; [apply number_kept|]); intros x _.
      * apply k_when_no; [discriminate|]. here. apply k_bind; [apply number_kept|]. intros y _. apply k_nil.
      * apply k_when; [reflexivity|]. here. apply k_bind; [apply number_kept|]. intros y _. here.
        apply k_bind; [apply number_kept|]. intros z _. apply k_nil.
    + apply contains_not_In in C. apply k_when_no; [exact C|]. apply k_when; [exact C|]. apply k_one, k_fields.
      apply k_bind; [apply k_mapM; intros; apply number_kept|]. intros l Hl. apply mapM_ok, forall2_length in Hl.
      change c_comma with 44 in Hl. rewrite <- Hl. apply k_must; [apply Nat.ltb_ge | reflexivity |]. intros _. apply k_nil.
  - assert (N : ~ opens s) by (intro X; apply opens_iff in X; congruence).
    apply k_when; [exact N|]. apply k_done; [apply k_map, number_kept | apply when_no, N].
Qed.
Lemma float_is : forall s x, p_f32 s = Ok x -> parse_f32 s = Ok x.
Proof. intros s x. unfold p_f32. destruct (parse_f32 s); cbn [res_map_err]; congruence. Qed.
Lemma float_range_kept : forall i, kept (parse_ps_range i) (float_range_rule i).
Proof.
  intro i. unfold parse_ps_range, float_range_rule. apply k_fields. change c_minus with 45.
  destruct (split 45 i) as [|a [|b [|c fs]]] eqn:S; try missing. there. here.
  apply k_bind; [apply float32_kept|]. intros x Hx. here. apply k_bind; [apply float32_kept|]. intros y Hy.
  apply float_is in Hx, Hy. apply k_must; [|reflexivity|intros _; apply k_nil]. unfold float_range. split.
  - intro G. exists x, y, a, b. split; [apply fields_split, S | auto].
  - intros (x' & y' & a' & b' & F & P & Q & G). apply fields_split in F. rewrite S in F. injection F as <- <-. congruence.
Qed.
Lemma ascending_err : forall l x, (exists u, ascending x l = Ok u) \/
  ascending x l = Err (gen "imageattr's sar discrete value list must contain ascending values").
Proof.
  induction l as [|y l IH]; intro x; cbn [ascending]; [eauto|]. destruct (f32_ge x y); [auto | apply IH].
Qed.
Lemma sar_kept : forall s, kept (parse_sar s) (sar_rule s).
Proof.
  intro s. unfold parse_sar, sar_rule. destruct (starts_with_char c_lbr s) eqn:O.
  - apply opens_iff in O. apply k_when_no; [tauto|]. apply k_when; [exact O|]. apply k_one, k_enclosed; [reflexivity|].
    intros i B. rewrite (braced_contains _ _ c_minus B), (braced_contains _ _ c_comma B) by discriminate.
    change c_minus with 45. change c_comma with 44. destruct (contains 45 i) eqn:C.
    + apply contains_In in C. apply k_when; [exact C|]. apply k_done; [|apply when_no; tauto].
      pose proof (float_range_kept i) as K. destruct (parse_ps_range i) as [[x y]|e|] eqn:P; cbn [bind].
      * apply (k_map (Ok (x, y)) (fun p => Some (SRange (fst p) (snd p)))), K.
      * apply (k_map (Err e) (fun p : f32 * f32 => Some (SRange (fst p) (snd p)))), K.
      * apply (k_map Panic (fun p : f32 * f32 => Some (SRange (fst p) (snd p)))), K.
    + apply contains_not_In in C. apply k_when_no; [exact C|]. destruct (contains 44 i) eqn:D.
      * apply contains_In in D. apply k_when; [tauto|]. apply k_one, k_fields.
        apply k_bind; [apply k_mapM; intros; apply float32_kept|]. intros l Hl. apply floats_iff in Hl.
        pose proof (forall2_length _ _ _ Hl) as L.
        assert (F : (2 <= List.length (split 44 i))%nat) by (eapply fields_length; [apply fields_split; reflexivity | exact D]).
        replace (Nat.ltb _ 2) with false by (symmetry; apply Nat.ltb_ge; lia).
        assert (U : forall l', Forall2 (fun t x => parse_f32 t = Ok x) (split 44 i) l' -> l' = l).
        { intros l' K. apply floats_iff in K, Hl. congruence. }
        destruct (ascending_err l 0) as [(u & A)|A]; rewrite A; cbn [bind].
        -- apply k_must_ok; [|apply k_nil]. exists l. split; [exact Hl|]. apply ascending_iff in A. exact A.
        -- apply k_must_err; [|reflexivity]. intros (l' & H' & K). apply U in H'. subst l'.
           apply (proj2 (ascending_iff l 0 tt)) in K. congruence.
      * apply contains_not_In in D. apply k_when_no; [tauto | apply k_nil].
  - assert (N : ~ opens s) by (intro X; apply opens_iff in X; congruence).
    apply k_when; [exact N|]. apply k_done; [apply k_map, float32_kept | apply when_no, N].
Qed.
Lemma par_kept : forall s, kept (parse_par s) (par_rule s).
Proof.
  intro s. unfold parse_par, par_rule.
  apply k_must; [rewrite negb_false_iff; apply opens_iff | reflexivity|]. intros _. apply k_one, k_enclosed; [reflexivity|].
  intros i _. pose proof (float_range_kept i) as K. destruct (parse_ps_range i) as [[x y]|e|] eqn:P; cbn [bind].
  - apply (k_map (Ok (x, y)) (fun p => {| par_min := fst p; par_max := snd p |})), K.
  - apply (k_map (Err e) (fun p : f32 * f32 => {| par_min := fst p; par_max := snd p |})), K.
  - apply (k_map Panic (fun p : f32 * f32 => {| par_min := fst p; par_max := snd p |})), K.
Qed.
Lemma k_prefix : forall {A} (x : res ierr A) p v w (r : str -> rule) cs, v = p ++ w ->
  kept x (all (r w :: cs)) -> kept x (all (after_prefix p v r :: cs)).
Proof. intros A x p v w r cs Q K. eapply k_head; [eapply prefix_at, Q | exact K]. Qed.
Lemma k_no_prefix : forall {A} (x : res ierr A) p v (r : str -> rule) cs, (forall w, v <> p ++ w) ->
  kept x (all cs) -> kept x (all (after_prefix p v r :: cs)).
Proof. intros A x p v r cs Q K. apply k_skip; [apply prefix_none, Q | exact K]. Qed.
Lemma image_key_kept : forall a t, kept (image_set_key a t) (image_key t).
Proof.
  intros [[s p] q] t. unfold image_set_key, image_key.
  destruct (strip_cases (lit "sar=") t) as [(x & Q & R)|[Q R]]; rewrite R.
  - eapply k_prefix; [exact Q|]. apply k_bind; [apply sar_kept|]. intros r _.
    apply k_no_prefix; [rewrite Q; discriminate|]. apply k_no_prefix; [rewrite Q; discriminate|]. apply k_nil.
  - apply k_no_prefix; [exact Q|]. clear Q R.
    destruct (strip_cases (lit "par=") t) as [(x & Q & R)|[Q R]]; rewrite R.
    + eapply k_prefix; [exact Q|]. apply k_bind; [apply par_kept|]. intros r _.
      apply k_no_prefix; [rewrite Q; discriminate|]. apply k_nil.
    + apply k_no_prefix; [exact Q|]. clear Q R.
      destruct (strip_cases (lit "q=") t) as [(x & Q & R)|[Q R]]; rewrite R.
      * eapply k_prefix; [exact Q|]. apply k_bind; [apply float32_kept|]. intros r _. apply k_nil.
      * apply k_no_prefix; [exact Q|]. apply k_nil.
Qed.
Notation small t := (short (List.length t)).
Lemma k_brackets : forall {A} sep v (f : list str -> res ierr A) (r : list str -> rule), small v ->
  (forall ts, Forall (fun t => small t) ts -> kept (f ts) (r ts)) ->
  kept (bind (parse_imageattr_tokens v sep) f) (in_brackets sep v r).
Proof.
  intros A sep v f r L K. destruct (parse_imageattr_tokens v sep) as [ts|x|] eqn:P.
  - apply tokens_sound in P. eapply kept_same; [apply in_brackets_at, P|]. cbn [bind]. apply K. eapply tokens_short; eassumption.
  - destruct (loop_no_err _ _ _ _ _ _ P).
  - destruct (parse_tokens_np _ _ L P).
Qed.
Lemma image_set_kept : forall s, small s -> kept (parse_set s) (image_set_rule s).
Proof.
  intros s L. unfold parse_set, image_set_rule. apply k_enclosed; [reflexivity|]. intros i B.
  assert (Li : small i).
  { unfold braced in B. subst s. unfold short in *. rewrite !app_length in L. cbn [List.length] in L. lia. }
  unfold parse_image_set. apply k_brackets; [exact Li|]. intros ts _.
  destruct ts as [|t0 ts]; [missing|]. there. here.
  destruct (strip_cases (lit "x=") t0) as [(x & Q & R)|[Q R]]; rewrite R.
  2: { apply k_must_err; [|reflexivity]. intros (x & X). exact (Q _ X). }
  apply k_must_ok; [eauto|]. here. eapply k_prefix; [exact Q|]. apply k_bind; [apply xy_kept|]. intros rx _.
  clear x Q R. destruct ts as [|t1 ts]; [missing|]. there. here.
  destruct (strip_cases (lit "y=") t1) as [(x & Q & R)|[Q R]]; rewrite R.
  2: { apply k_must_err; [|reflexivity]. intros (x & X). exact (Q _ X). }
  apply k_must_ok; [eauto|]. here. eapply k_prefix; [exact Q|]. apply k_bind; [apply xy_kept|]. intros ry _.
  cbn [skipn]. apply k_bind; [apply k_foldM; intros; apply image_key_kept|]. intros [[a b] c] _. apply k_nil.
Qed.
Lemma more_kept : forall {A} (f : list image_set * list str -> res ierr A) (next : list str -> rule) more ss,
  Forall opens ss -> match more with [] => True | t :: _ => ~ opens t end ->
  Forall (fun t => small t) ss -> (forall sets, kept (f (sets, more)) (next more)) ->
  forall sets, kept (bind (more_sets sets (ss ++ more)) f) (all (map image_set_rule ss ++ [next more])).
Proof.
  intros A f next more ss O M L K. induction ss as [|t ss IH]; intro sets; cbn [app map].
  - apply k_one. destruct more as [|t more]; cbn [more_sets]; [apply K|].
    destruct (starts_with_char c_lbr t) eqn:S; [apply opens_iff in S; contradiction|]. apply K.
  - inversion O as [|? ? O1 O2]; subst. inversion L as [|? ? L1 L2]; subst. cbn [more_sets].
    apply opens_iff in O1. rewrite O1. rewrite bind_assoc. apply k_bind; [apply image_set_kept, L1|].
    intros s _. apply IH; assumption.
Qed.
Lemma opens_dec : forall t, opens t \/ ~ opens t.
Proof.
  intro t. destruct (starts_with_char c_lbr t) eqn:S; [left; apply opens_iff, S|].
  right. intro O. apply opens_iff in O. congruence.
Qed.
Lemma run_of : forall l, exists ss more, l = ss ++ more /\ Forall opens ss /\ match more with [] => True | t :: _ => ~ opens t end.
Proof.
  induction l as [|t l IH]; [exists [], []; auto|]. destruct (opens_dec t) as [O|O].
  - destruct IH as (ss & more & -> & H1 & H2). exists (t :: ss), more. auto.
  - exists [], (t :: l). auto.
Qed.
Lemma run_unique : forall ss ss' more more', ss ++ more = ss' ++ more' -> Forall opens ss -> Forall opens ss' ->
  match more with [] => True | t :: _ => ~ opens t end -> match more' with [] => True | t :: _ => ~ opens t end ->
  ss = ss' /\ more = more'.
Proof.
  induction ss as [|t ss IH]; intros [|t' ss'] more more' Q O O' M M'; cbn [app] in Q.
  - auto.
  - inversion O' as [|? ? X _]; subst. cbn in M. contradiction.
  - inversion O as [|? ? X _]; subst. cbn in M'. contradiction.
  - injection Q as <- Q. inversion O; inversion O'; subst. destruct (IH _ _ _ Q) as [-> ->]; auto.
Qed.
Lemma image_list_kept : forall {A} (f : image_set_list * list str -> res ierr A) (next : list str -> rule) l,
  Forall (fun t => small t) l ->
  (forall sets more, Forall (fun t => small t) more -> kept (f (sets, more)) (next more)) ->
  kept (bind (parse_image_set_list l) f) (image_list l next).
Proof.
  intros A f next l L K. unfold image_list. destruct l as [|t l]; cbn [parse_image_set_list bind].
  { apply k_must_err; [congruence | reflexivity]. }
  apply k_must_ok; [discriminate|]. apply k_one. inversion L as [|? ? L1 L2]; subst.
  destruct (str_eqb_spec t (lit "*")) as [Q|Q].
  - cbn [bind]. eapply kept_same; [|apply K, L2].
    assert (U : forall first more, set_list (t :: l) first more -> first = [lit "*"] /\ more = l).
    { intros first more (H & [(s & -> & W)|(s & ss & -> & W & _)]).
      - injection H as <- <-. rewrite Q. auto.
      - injection H as <- _. contradiction. }
    assert (S : set_list (t :: l) [lit "*"] l).
    { split; [rewrite Q; reflexivity|]. left. exists (lit "*"). split; reflexivity. }
    split; cbn [fst snd].
    + split; [intro H; exact (proj2 (H _ _ S))|]. intros H first more X. apply U in X. destruct X as [-> ->]. auto.
    + intro e. split.
      * intros (first & more & X & H). apply U in X. destruct X as [-> ->]. destruct H as [[H _]|[_ H]]; [congruence | exact H].
      * intro H. exists [lit "*"], l. auto.
  - destruct (run_of l) as (ss & more & Hl & O & M).
    assert (Ls : Forall (fun t => small t) ss /\ Forall (fun t => small t) more).
    { subst l. apply Forall_app in L2. exact L2. }
    assert (U : forall first more', set_list (t :: l) first more' -> first = t :: ss /\ more' = more).
    { intros first more' (H & [(s & -> & W)|(s & ss' & -> & W & O' & M')]).
      - injection H as <- _. contradiction.
      - injection H as <- H. rewrite Hl in H. destruct (run_unique _ _ _ _ H O O' M M') as [<- <-]. auto. }
    assert (S : set_list (t :: l) (t :: ss) more).
    { split; [rewrite Hl; reflexivity|]. right. exists t, ss. auto. }
    assert (N : t :: ss <> [lit "*"]) by congruence.
    eapply kept_same; [|].
    2: { rewrite bind_assoc, Hl. apply (k_flat _ [image_set_rule t] (map image_set_rule ss ++ [next more])).
         cbn [app]. apply k_bind; [apply image_set_kept, L1|]. intros s _. rewrite bind_assoc.
         apply (more_kept (fun p => bind (let '(sets, rest') := p in Ok (Sets sets, rest')) f)); [exact O | exact M | apply Ls|].
         intro sets. cbn [bind]. apply K, Ls. }
    apply (same_trans _ (all [each image_set_rule (t :: ss); next more])).
    + split.
      * rewrite !all_fst. cbn [fst]. split.
        -- intro H. destruct (H _ _ S) as [[X|X] Y]; [congruence|]. split; [exact X|]. split; [exact Y | constructor].
        -- intros [X [Y _]] first more' Z. apply U in Z. destruct Z as [-> ->]. auto.
      * intro e. rewrite !all_snd. cbn [snd]. split.
        -- intros (first & more' & Z & H). apply U in Z. destruct Z as [-> ->].
           destruct H as [[_ H]|[[H|H] Y]]; [auto | congruence | auto].
        -- intro H. exists (t :: ss), more. split; [exact S|]. destruct H as [H|[H [Y|[_ Y]]]]; [auto | auto | destruct (broken_nil _ Y)].
    + apply (same_trans _ _ _ (all_all _ _)). cbn [map app].
      destruct (all_all [image_set_rule t] (map image_set_rule ss ++ [next more])) as [A1 A2].
      split; [symmetry; exact A1 | intro e; symmetry; apply A2].
Qed.
Lemma image_attr_kept : forall v, small v -> kept (parse_image_attr v) (image_attr_rule v).
Proof.
  intros v L. unfold parse_image_attr, image_attr_rule. apply k_brackets; [exact L|]. intros ts Lt.
  destruct ts as [|t0 ts]; [missing|]. there. here. apply k_bind; [apply payload_kept|]. intros pt _.
  destruct ts as [|t1 ts]; [missing|]. there. here. apply k_bind; [apply direction_word_kept|]. intros d Hd.
  cbn [skipn]. inversion Lt as [|? ? _ Lt1]; subst. inversion Lt1 as [|? ? _ Lt2]; subst. clear Lt Lt1.
  apply k_one, image_list_kept; [exact Lt2|]. intros sets more Lm. destruct more as [|m0 more].
  - cbn [bind]. apply k_single. apply k_when_no; [congruence | apply k_nil].
  - apply k_single, k_when; [discriminate|]. apply k_one. here. rewrite bind_assoc.
    apply k_bind; [apply direction_word_kept|]. intros x Hx. cbn [nth_error tl].
    pose proof (single_direction_same _ _ _ _ Hd Hx) as Z. destruct (single_direction_eqb x d); cbn [bind].
    + apply k_must_err; [|reflexivity]. intro K. apply Z in K. discriminate.
    + apply k_must_ok; [apply Z; reflexivity|]. inversion Lm as [|? ? _ Lm1]; subst.
      apply k_one, image_list_kept; [exact Lm1|]. intros sets' more' _. apply k_single. destruct more' as [|m more'].
      * apply k_must_ok; [reflexivity | apply k_nil].
      * apply k_must_err; [discriminate | reflexivity].
Qed.
End WithExt.

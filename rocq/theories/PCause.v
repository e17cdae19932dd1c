(** * Why attributes are refused: rules and results (proofs for C69) *)
From Coq Require Import List NArith ZArith Bool Ascii String Lia.
From Coq Require Import ZifyBool ZifyNat ZifyN.
From Verif Require Import Str Num Net Types Ext Show Address AttrParse Media Session.
From Verif Require Import StrLemmas NumLemmas NetLemmas.
From Verif Require Import SpecApi SpecDoc SpecVal SpecUnsup SpecWarn SpecWhy SpecCause PPanic PDoc PDoc2 PDoc3 PDoc4.
From Verif Require Import PVal PVal2 PVal3 PVal4 PVal5 PVal6 PVal7 PVal8 PVal9 PWarn PWhy.
Import ListNotations.
Open Scope N_scope.
Open Scope list_scope.

(** ** Equivalent rules *)
Definition same (c d : rule) : Prop := (fst c <-> fst d) /\ forall e, snd c e <-> snd d e.
Lemma same_refl : forall c, same c c.
Proof. intro c. split; intros; reflexivity. Qed.
Lemma same_trans : forall a b c, same a b -> same b c -> same a c.
Proof.
  intros a b c [H1 H2] [K1 K2]. split; [rewrite H1; exact K1 | intro e; rewrite (H2 e); apply K2].
Qed.
Lemma kept_same : forall {A} (r : res ierr A) c d, same c d -> kept r d -> kept r c.
Proof.
  intros A r c d [S1 S2] [K1 K2]. split; [rewrite S1; exact K1 | intros e He; rewrite (S2 e); exact (K2 e He)].
Qed.
Lemma all_fst : forall c cs, fst (all (c :: cs)) <-> fst c /\ fst (all cs).
Proof. intros c cs. cbn [all fst]. apply Forall_cons_iff. Qed.
Lemma all_snd : forall c cs e, snd (all (c :: cs)) e <-> snd c e \/ (fst c /\ snd (all cs) e).
Proof. intros c cs e. cbn [all snd]. apply broken_cons. Qed.
Lemma same_head : forall c d cs, same c d -> same (all (c :: cs)) (all (d :: cs)).
Proof.
  intros c d cs [H1 H2]. split; [rewrite !all_fst, H1; reflexivity | intro e; rewrite !all_snd, H1, H2; reflexivity].
Qed.
Lemma all_all : forall cs ds, same (all (all cs :: ds)) (all (cs ++ ds)).
Proof.
  intros cs ds. induction cs as [|c cs IH]; cbn [app].
  - split; [rewrite all_fst; cbn [all fst]; split; [intros [_ H]; exact H | intro H; split; [constructor | exact H]]|].
    intro e. rewrite all_snd. cbn [all fst snd]. split; [intros [H|[_ H]]; [destruct (broken_nil _ H) | exact H]|].
    intro H. right. split; [constructor | exact H].
  - destruct IH as [I1 I2]. split.
    + rewrite all_fst, !all_fst, <- I1, all_fst. tauto.
    + intro e. rewrite all_snd, !all_snd, <- (I2 e), all_snd, all_fst. tauto.
Qed.
Lemma all_one : forall c, same (all [c]) c.
Proof.
  intro c. split.
  - rewrite all_fst. cbn [all fst]. split; [tauto | intro H; split; [exact H | constructor]].
  - intro e. rewrite all_snd. cbn [all fst snd]. split; [intros [H|[_ H]]; [exact H | destruct (broken_nil _ H)] | auto].
Qed.
Lemma when_yes : forall (p : Prop) r, p -> same (when p r) r.
Proof. intros p r P. unfold when. split; cbn [fst snd]; tauto. Qed.
Lemma about_at : forall ws i (r : str -> rule) w, nth_error ws i = Some w -> same (about ws i r) (r w).
Proof.
  intros ws i r w H. unfold about. split; cbn [fst snd].
  - split; [intros (x & Hx & X); congruence | eauto].
  - intro e. split; [intros (x & Hx & X); congruence | eauto].
Qed.
Lemma in_words_at : forall v (r : list str -> rule), same (in_words v r) (r (split_whitespace v)).
Proof.
  intros v r. unfold in_words. split; cbn [fst snd].
  - split; [intros (ws & W & H); apply words_sws in W; subst ws; exact H|].
    intro H. eexists. split; [apply words_sws; reflexivity | exact H].
  - intro e. split; [intros (ws & W & H); apply words_sws in W; subst ws; exact H|].
    intro H. eexists. split; [apply words_sws; reflexivity | exact H].
Qed.
Lemma in_fields_at : forall sep v (r : list str -> rule), same (in_fields sep v r) (r (split sep v)).
Proof.
  intros sep v r. unfold in_fields. split; cbn [fst snd].
  - split; [intros (ws & W & H); apply fields_split in W; subst ws; exact H|].
    intro H. eexists. split; [apply fields_split; reflexivity | exact H].
  - intro e. split; [intros (ws & W & H); apply fields_split in W; subst ws; exact H|].
    intro H. eexists. split; [apply fields_split; reflexivity | exact H].
Qed.
Lemma in_parts_at : forall n v (r : list str -> rule), same (in_parts (S n) v r) (r (splitn (S n) 32 v)).
Proof.
  intros n v r. unfold in_parts. split; cbn [fst snd].
  - split; [intros (ws & W & H); apply parts_splitn in W; destruct W as [_ <-]; exact H|].
    intro H. eexists. split; [apply parts_splitn; split; [discriminate | reflexivity] | exact H].
  - intro e. split; [intros (ws & W & H); apply parts_splitn in W; destruct W as [_ <-]; exact H|].
    intro H. eexists. split; [apply parts_splitn; split; [discriminate | reflexivity] | exact H].
Qed.
Lemma in_brackets_at : forall sep v ts (r : list str -> rule), bracket_tokens sep v ts ->
  same (in_brackets sep v r) (r ts).
Proof.
  intros sep v ts r B. unfold in_brackets. split; cbn [fst snd].
  - split; [intros (ws & W & H); rewrite (bracket_tokens_fun _ _ _ _ B W); exact H | eauto].
  - intro e. split; [intros (ws & W & H); rewrite (bracket_tokens_fun _ _ _ _ B W); exact H | eauto].
Qed.
Lemma cut_fun : forall sep v a b a' b', cut sep v a b -> cut sep v a' b' -> a = a' /\ b = b'.
Proof.
  intros sep v a b a' b' H K. apply cut_splitn2 in H, K. rewrite H in K. inv K. auto.
Qed.
Lemma at_cut_at : forall sep v a b (r : str -> str -> rule), cut sep v a b -> same (at_cut sep v r) (r a b).
Proof.
  intros sep v a b r C. unfold at_cut. split; cbn [fst snd].
  - split; [intro H; exact (H a b C)|]. intros H x y K. destruct (cut_fun _ _ _ _ _ _ C K) as [<- <-]. exact H.
  - intro e. split; [|eauto]. intros (x & y & K & H). destruct (cut_fun _ _ _ _ _ _ C K) as [<- <-]. exact H.
Qed.
Definition no_rule : rule := (True, fun _ => False).
Lemma at_cut_none : forall sep v (r : str -> str -> rule), ~ In sep v -> same (at_cut sep v r) no_rule.
Proof.
  intros sep v r C. unfold at_cut, no_rule. split; cbn [fst snd].
  - split; [auto|]. intros _ x y K. apply cut_In in K. contradiction.
  - intro e. split; [|tauto]. intros (x & y & K & H). apply cut_In in K. contradiction.
Qed.
Lemma when_no : forall (p : Prop) r, ~ p -> same (when p r) no_rule.
Proof. intros p r P. unfold when, no_rule. split; cbn [fst snd]; tauto. Qed.
Lemma before_at : forall sep v (r : str -> rule) x l, split sep v = x :: l -> same (before sep v r) (r x).
Proof.
  intros sep v r x l H. unfold before. eapply same_trans; [apply in_fields_at|].
  rewrite H. apply about_at. reflexivity.
Qed.
Lemma prefix_at : forall p v x (r : str -> rule), v = p ++ x -> same (after_prefix p v r) (r x).
Proof.
  intros p v x r ->. unfold after_prefix. split; cbn [fst snd].
  - split; [intro H; exact (H x eq_refl)|]. intros H y K. apply app_inv_head in K. subst y. exact H.
  - intro e. split; [|eauto]. intros (y & K & H). apply app_inv_head in K. subst y. exact H.
Qed.
Lemma prefix_none : forall p v (r : str -> rule), (forall x, v <> p ++ x) -> same (after_prefix p v r) no_rule.
Proof.
  intros p v r C. unfold after_prefix, no_rule. split; cbn [fst snd].
  - split; [auto|]. intros _ x K. destruct (C x K).
  - intro e. split; [|tauto]. intros (x & K & H). exact (C x K).
Qed.
Lemma trimmed_at : forall v (r : str -> rule), same (trimmed v r) (r (trim v)).
Proof.
  intros v r. unfold trimmed. split; cbn [fst snd].
  - split; [intros (t & C & H); apply core_trim in C; subst t; exact H|].
    intro H. exists (trim v). split; [apply core_trim; reflexivity | exact H].
  - intro e. split; [intros (t & C & H); apply core_trim in C; subst t; exact H|].
    intro H. exists (trim v). split; [apply core_trim; reflexivity | exact H].
Qed.

(** ** Rules for results *)
Lemma k_head : forall {A} (x : res ierr A) c d cs, same c d -> kept x (all (d :: cs)) -> kept x (all (c :: cs)).
Proof. intros A x c d cs S K. exact (kept_same _ _ _ (same_head _ _ _ S) K). Qed.
Lemma k_nil : forall {A} (a : A), kept (Ok a) (all []).
Proof.
  intros A a. split; [cbn [all fst]; split; [eauto | constructor]|]. intros e _. cbn [all snd].
  split; [intro H; destruct (broken_nil _ H) | discriminate].
Qed.
Lemma k_bind : forall {A B} (r : res ierr A) (f : A -> res ierr B) c cs, kept r c ->
  (forall a, r = Ok a -> kept (f a) (all cs)) -> kept (bind r f) (all (c :: cs)).
Proof.
  intros A B r f c cs K H. split.
  - rewrite all_fst. destruct K as [K _]. rewrite K. destruct r as [a|x|]; cbn [bind].
    + destruct (H a eq_refl) as [H1 _]. rewrite H1. split; [tauto | eauto].
    + split; [intros [(a & X) _]; discriminate | intros (a & X); discriminate].
    + split; [intros [(a & X) _]; discriminate | intros (a & X); discriminate].
  - intros e He. apply broken_bind; [exact He | exact K|]. intros a Ha. destruct (H a Ha) as [_ H2]. exact (H2 e He).
Qed.
Lemma k_map : forall {A B} (r : res ierr A) (f : A -> B) c, kept r c -> kept (bind r (fun a => Ok (f a))) c.
Proof.
  intros A B r f c [K1 K2]. destruct r as [a|x|]; cbn [bind]; split.
  - rewrite K1. split; eauto.
  - intros e He. rewrite (K2 e He). split; discriminate.
  - rewrite K1. split; intros (? & ?); discriminate.
  - intros e He. rewrite (K2 e He). split; congruence.
  - rewrite K1. split; intros (? & ?); discriminate.
  - intros e He. rewrite (K2 e He). split; discriminate.
Qed.
Lemma k_one : forall {A} (r : res ierr A) c, kept r c -> kept r (all [c]).
Proof. intros A r c K. exact (kept_same _ _ _ (all_one c) K). Qed.
Lemma k_single : forall {A} (r : res ierr A) c, kept r (all [c]) -> kept r c.
Proof.
  intros A r c K. eapply kept_same; [|exact K]. destruct (all_one c) as [H1 H2].
  split; [symmetry; exact H1 | intro e; symmetry; apply H2].
Qed.
Lemma k_flat : forall {A} (r : res ierr A) cs ds, kept r (all (cs ++ ds)) -> kept r (all (all cs :: ds)).
Proof. intros A r cs ds K. exact (kept_same _ _ _ (all_all cs ds) K). Qed.
Lemma k_skip : forall {A} (r : res ierr A) c cs, same c no_rule -> kept r (all cs) -> kept r (all (c :: cs)).
Proof.
  intros A r c cs S K. eapply k_head; [exact S|]. split.
  - rewrite all_fst. destruct K as [K _]. rewrite <- K. cbn [no_rule fst]. tauto.
  - intros e He. rewrite all_snd. destruct K as [_ K]. rewrite <- (K e He). cbn [no_rule fst snd]. tauto.
Qed.
Lemma k_must_ok : forall {A} (r : res ierr A) (p : Prop) t cs, p -> kept r (all cs) -> kept r (all (must p t :: cs)).
Proof.
  intros A r p t cs P K. apply k_skip; [|exact K]. split; cbn [must no_rule fst snd]; tauto.
Qed.
Lemma k_must_err : forall {A} (p : Prop) t cs m, ~ p -> m = of_string t ->
  kept (@Err ierr A (EGeneric m)) (all (must p t :: cs)).
Proof.
  intros A p t cs m P ->. split.
  - rewrite all_fst. cbn [must fst]. split; [tauto | intros (a & X); discriminate].
  - intros e _. rewrite all_snd. cbn [must fst snd]. unfold complains.
    split; [intros [[_ ->]|[H _]]; [reflexivity | contradiction] | intro H; left; split; [exact P | congruence]].
Qed.
Lemma k_must : forall {A} (r : res ierr A) (b : bool) (p : Prop) t cs m, (b = false <-> p) -> m = of_string t ->
  (p -> kept r (all cs)) -> kept (if b then Err (EGeneric m) else r) (all (must p t :: cs)).
Proof.
  intros A r b p t cs m B M K. destruct b.
  - apply k_must_err; [|exact M]. intro P. apply B in P. discriminate.
  - apply k_must_ok; [apply B; reflexivity | apply K, B; reflexivity].
Qed.
Lemma k_must' : forall {A} (r : res ierr A) (b : bool) (p : Prop) t cs m, (b = true <-> p) -> m = of_string t ->
  (p -> kept r (all cs)) -> kept (if b then r else Err (EGeneric m)) (all (must p t :: cs)).
Proof.
  intros A r b p t cs m B M K. destruct b.
  - apply k_must_ok; [apply B; reflexivity | apply K, B; reflexivity].
  - apply k_must_err; [|exact M]. intro P. apply B in P. discriminate.
Qed.
Lemma k_say_ok : forall {A} (r : res ierr A) (p : Prop) t cs, p -> kept r (all cs) -> kept r (all (say p t :: cs)).
Proof.
  intros A r p t cs P K. apply k_skip; [|exact K]. split; cbn [say no_rule fst snd]; tauto.
Qed.
Lemma k_say_err : forall {A} (p : Prop) t cs m, ~ p -> m = t ->
  kept (@Err ierr A (EGeneric m)) (all (say p t :: cs)).
Proof.
  intros A p t cs m P ->. split.
  - rewrite all_fst. cbn [say fst]. split; [tauto | intros (a & X); discriminate].
  - intros e _. rewrite all_snd. cbn [say fst snd].
    split; [intros [[_ ->]|[H _]]; [reflexivity | contradiction] | intro H; left; split; [exact P | congruence]].
Qed.
Lemma k_known_ok : forall {A} (r : res ierr A) (p : Prop) cs, p -> kept r (all cs) -> kept r (all (known p :: cs)).
Proof.
  intros A r p cs P K. apply k_skip; [|exact K]. split; cbn [known no_rule fst snd]; tauto.
Qed.
Lemma k_known_err : forall {A} (p : Prop) cs m, ~ p -> kept (@Err ierr A (EUnsupported m)) (all (known p :: cs)).
Proof.
  intros A p cs m P. split.
  - rewrite all_fst. cbn [known fst]. split; [tauto | intros (a & X); discriminate].
  - intros e He. rewrite all_snd. cbn [known fst snd]. split; [tauto|]. intro H. exfalso. apply (He m). congruence.
Qed.
Lemma k_when : forall {A} (r : res ierr A) (p : Prop) c cs, p -> kept r (all (c :: cs)) -> kept r (all (when p c :: cs)).
Proof. intros A r p c cs P K. eapply k_head; [apply when_yes, P | exact K]. Qed.
Lemma k_when_no : forall {A} (r : res ierr A) (p : Prop) c cs, ~ p -> kept r (all cs) -> kept r (all (when p c :: cs)).
Proof. intros A r p c cs P K. apply k_skip; [apply when_no, P | exact K]. Qed.
Lemma k_about : forall {A} (x : res ierr A) ws i (r : str -> rule) w cs, nth_error ws i = Some w ->
  kept x (all (r w :: cs)) -> kept x (all (about ws i r :: cs)).
Proof. intros A x ws i r w cs H K. eapply k_head; [apply about_at, H | exact K]. Qed.
Lemma k_words : forall {A} (x : res ierr A) v r, kept x (r (split_whitespace v)) -> kept x (in_words v r).
Proof. intros A x v r K. exact (kept_same _ _ _ (in_words_at v r) K). Qed.
Lemma k_fields : forall {A} (x : res ierr A) sep v r, kept x (r (split sep v)) -> kept x (in_fields sep v r).
Proof. intros A x sep v r K. exact (kept_same _ _ _ (in_fields_at sep v r) K). Qed.
Lemma k_parts : forall {A} (x : res ierr A) n v r, kept x (r (splitn (S n) 32 v)) -> kept x (in_parts (S n) v r).
Proof. intros A x n v r K. exact (kept_same _ _ _ (in_parts_at n v r) K). Qed.
Lemma k_table : forall {A B} (o : option B) (P : B -> Prop) (f : B -> res ierr A) t cs m,
  (forall x, o = Some x <-> P x) -> m = of_string t -> (forall x, o = Some x -> kept (f x) (all cs)) ->
  kept (match o with Some x => f x | None => Err (EGeneric m) end) (all (must (exists x, P x) t :: cs)).
Proof.
  intros A B o P f t cs m H M K. destruct o as [x|].
  - apply k_must_ok; [exists x; apply H; reflexivity | apply K; reflexivity].
  - apply k_must_err; [|exact M]. intros (x & X). apply H in X. discriminate.
Qed.
Lemma k_known : forall {A B} (r : res ierr B) (P : B -> Prop) (f : B -> res ierr A) cs,
  (forall x, r = Ok x <-> P x) -> (forall e, r = Err e -> exists m, e = EUnsupported m) -> r <> Panic ->
  (forall x, r = Ok x -> kept (f x) (all cs)) -> kept (bind r f) (all (known (exists x, P x) :: cs)).
Proof.
  intros A B r P f cs H X N K. destruct r as [x|e|]; cbn [bind].
  - apply k_known_ok; [exists x; apply H; reflexivity | apply K; reflexivity].
  - destruct (X e eq_refl) as (m & ->). apply k_known_err. intros (x & Q). apply H in Q. discriminate.
  - congruence.
Qed.
Lemma k_mapM : forall {A} (f : str -> res ierr A) r l, (forall x, In x l -> kept (f x) (r x)) -> kept (mapM f l) (each r l).
Proof.
  intros A f r l. unfold each. induction l as [|x l IH]; intro H; cbn [mapM map]; [apply k_nil|].
  apply k_bind; [apply H; left; reflexivity|]. intros a _. apply k_map, IH. intros y Hy. apply H. right. exact Hy.
Qed.
Lemma k_foldM : forall {A} (f : A -> str -> res ierr A) r l a, (forall a x, In x l -> kept (f a x) (r x)) ->
  kept (foldM f l a) (each r l).
Proof.
  intros A f r l. unfold each. induction l as [|x l IH]; intros a H; cbn [foldM map]; [apply k_nil|].
  apply k_bind; [apply H; left; reflexivity|]. intros b _. apply IH. intros c y Hy. apply H. right. exact Hy.
Qed.
Lemma k_running : forall {A} (f : A -> str -> res ierr A) r (inv : list str -> A -> Prop),
  (forall seen a x, inv seen a -> kept (f a x) (r seen x)) ->
  (forall seen a x b, inv seen a -> f a x = Ok b -> inv (seen ++ [x]) b) ->
  forall l seen a, inv seen a -> kept (foldM f l a) (all (running r seen l)).
Proof.
  intros A f r inv H1 H2 l. induction l as [|x l IH]; intros seen a I; cbn [foldM running]; [apply k_nil|].
  apply k_bind; [apply H1, I|]. intros b Hb. apply IH. exact (H2 _ _ _ _ I Hb).
Qed.
(** Tables of names. *)
Lemma by_name_nil : forall (is : str -> string -> Prop) n, same (by_name is [] n) no_rule.
Proof.
  intros is n. unfold by_name, no_rule. split; cbn [fst snd In].
  - split; [auto | intros _ w r []].
  - intro e. split; [intros (w & r & [] & _) | tauto].
Qed.
Lemma by_name_no : forall (is : str -> string -> Prop) w r t n, ~ is n w -> same (by_name is ((w, r) :: t) n) (by_name is t n).
Proof.
  intros is w r t n H. unfold by_name. split; cbn [fst snd In].
  - split; [eauto|]. intros K w' r' [X|X] Q; [inv X; contradiction | eauto].
  - intro e. split; [|intros (w' & r' & X & Q); eauto 6].
    intros (w' & r' & [X|X] & Q & Z); [inv X; contradiction | eauto 6].
Qed.
Lemma by_name_yes : forall (is : str -> string -> Prop) w r t n, is n w -> (forall w' r', In (w', r') t -> ~ is n w') ->
  same (by_name is ((w, r) :: t) n) r.
Proof.
  intros is w r t n H D. unfold by_name. split; cbn [fst snd In].
  - split; [eauto|]. intros K w' r' [X|X] Q; [inv X; exact K | destruct (D _ _ X Q)].
  - intro e. split; [|intros Z; eauto 6].
    intros (w' & r' & [X|X] & Q & Z); [inv X; exact Z | destruct (D _ _ X Q)].
Qed.
(** The code compares [key n] with the names in turn. *)
Lemma k_names : forall {A} (x y : res ierr A) is (k : str) w r t n,
  (forall w', In w' (w :: map fst t) -> (is n w' <-> k = of_string w')) ->
  existsb (String.eqb w) (map fst t) = false ->
  kept x r -> kept y (by_name is t n) ->
  kept (if str_eqb k (of_string w) then x else y) (by_name is ((w, r) :: t) n).
Proof.
  intros A x y is k w r t n H D Kx Ky. destruct (str_eqb_spec k (of_string w)) as [Q|Q].
  - eapply kept_same; [|exact Kx]. apply by_name_yes; [apply H; [left; reflexivity | exact Q]|].
    intros w' r' I K. assert (I' : In w' (map fst t)) by (apply in_map_iff; exists (w', r'); auto).
    apply H in K; [|right; exact I']. rewrite Q in K. apply of_string_inj in K. subst w'.
    assert (X : existsb (String.eqb w) (map fst t) = true); [|congruence].
    apply existsb_exists. exists w. split; [exact I' | apply String.eqb_refl].
  - eapply kept_same; [|exact Ky]. apply by_name_no. intro K. apply Q. apply H; [left; reflexivity | exact K].
Qed.
Lemma k_no_name : forall {A} (a : A) is n, kept (@Ok ierr A a) (by_name is [] n).
Proof.
  intros A a is n. eapply kept_same; [apply by_name_nil|]. split; cbn [no_rule fst snd].
  - split; eauto.
  - intros e _. split; [tauto | discriminate].
Qed.
Lemma k_ok_or : forall {A B} (o : option B) (P : B -> Prop) (f : B -> res ierr A) t cs m,
  (forall x, o = Some x <-> P x) -> m = of_string t -> (forall x, o = Some x -> kept (f x) (all cs)) ->
  kept (bind (ok_or o (EGeneric m)) f) (all (must (exists x, P x) t :: cs)).
Proof.
  intros A B o P f t cs m H M K. pose proof (k_table o P f t cs m H M K) as X. destruct o; exact X.
Qed.
Lemma k_lower : forall {A} (x y : res ierr A) w r t n,
  forallb (fun w => lower_word (of_string w)) (w :: map fst t) = true -> existsb (String.eqb w) (map fst t) = false ->
  kept x r -> kept y (by_name means t n) ->
  kept (if str_eqb (to_lower n) (of_string w) then x else y) (by_name means ((w, r) :: t) n).
Proof.
  intros A x y w r t n F. apply k_names. intros w' I. apply means_iff. rewrite forallb_forall in F. apply F, I.
Qed.
Lemma k_upper : forall {A} (x y : res ierr A) w r t n,
  forallb (fun w => upper_word (of_string w)) (w :: map fst t) = true -> existsb (String.eqb w) (map fst t) = false ->
  kept x r -> kept y (by_name means_upper t n) ->
  kept (if str_eqb (to_upper n) (of_string w) then x else y) (by_name means_upper ((w, r) :: t) n).
Proof.
  intros A x y w r t n F. apply k_names. intros w' I. apply means_upper_iff. rewrite forallb_forall in F. apply F, I.
Qed.
Lemma k_word : forall {A} (x y : res ierr A) w r t n, existsb (String.eqb w) (map fst t) = false ->
  kept x r -> kept y (by_name is_word t n) ->
  kept (if str_eqb n (of_string w) then x else y) (by_name is_word ((w, r) :: t) n).
Proof. intros A x y w r t n. apply k_names. intros w' _. reflexivity. Qed.

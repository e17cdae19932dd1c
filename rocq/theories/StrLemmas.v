(** * Lemmas about Str.v (proofs only) *)
From Coq Require Import List NArith ZArith Bool Ascii String Lia.
From Coq Require Import ZifyBool ZifyNat ZifyN.
From Verif Require Import Str.
Import ListNotations.
Open Scope N_scope.
Open Scope list_scope.

Ltac inv H := inversion H; subst; clear H.

(** ** Equality *)
Lemma str_eqb_eq : forall a b, str_eqb a b = true <-> a = b.
Proof.
  induction a as [|x a IH]; destruct b as [|y b]; cbn [str_eqb]; split; intros H;
    try discriminate; auto.
  - apply andb_true_iff in H. destruct H as [H1 H2]. apply N.eqb_eq in H1.
    apply IH in H2. congruence.
  - inv H. apply andb_true_iff. split. apply N.eqb_refl. apply IH. reflexivity.
Qed.
Lemma str_eqb_refl : forall a, str_eqb a a = true.
Proof. intros a. apply str_eqb_eq. reflexivity. Qed.
Lemma str_eqb_neq : forall a b, str_eqb a b = false <-> a <> b.
Proof.
  intros a b. destruct (str_eqb a b) eqn:H.
  - apply str_eqb_eq in H. split; intros; congruence.
  - split; auto. intros _ K. apply str_eqb_eq in K. congruence.
Qed.
Lemma str_eqb_sym : forall a b, str_eqb a b = str_eqb b a.
Proof.
  intros a b. destruct (str_eqb b a) eqn:H.
  - apply str_eqb_eq in H. subst. apply str_eqb_refl.
  - apply str_eqb_neq in H. apply str_eqb_neq. congruence.
Qed.
Lemma str_eq_dec : forall a b : str, {a = b} + {a <> b}.
Proof.
  intros a b. destruct (str_eqb a b) eqn:H; [left|right].
  - apply str_eqb_eq; auto.
  - apply str_eqb_neq; auto.
Qed.
Lemma str_eqb_spec : forall a b, reflect (a = b) (str_eqb a b).
Proof.
  intros a b. destruct (str_eqb a b) eqn:H; constructor.
  - apply str_eqb_eq; auto.
  - apply str_eqb_neq; auto.
Qed.

Lemma is_empty_true : forall s, is_empty s = true <-> s = [].
Proof. destruct s; simpl; split; intros; congruence. Qed.
Lemma is_empty_false : forall s, is_empty s = false <-> s <> [].
Proof. destruct s; simpl; split; intros; congruence. Qed.

(** ** Membership *)
Lemma contains_In : forall c s, contains c s = true <-> In c s.
Proof.
  intros c s. unfold contains. rewrite existsb_exists. split.
  - intros [x [H1 H2]]. apply N.eqb_eq in H2. subst. assumption.
  - intros H. exists c. split; auto. apply N.eqb_refl.
Qed.
Lemma contains_not_In : forall c s, contains c s = false <-> ~ In c s.
Proof.
  intros c s. rewrite <- contains_In. destruct (contains c s); split; intros; try congruence.
Qed.
Lemma contains_app : forall c a b, contains c (a ++ b) = contains c a || contains c b.
Proof. intros. unfold contains. apply existsb_app. Qed.
Lemma contains_cons : forall c x s, contains c (x :: s) = (c =? x) || contains c s.
Proof. reflexivity. Qed.
Lemma contains_forallb : forall c s,
  contains c s = false <-> forallb (fun x => negb (c =? x)) s = true.
Proof.
  intros c s. induction s as [|x s IH]; simpl; [split; auto|].
  destruct (c =? x); simpl; [split; intros; discriminate|apply IH].
Qed.
Lemma mem_str_In : forall x l, mem_str x l = true <-> In x l.
Proof.
  intros x l. unfold mem_str. rewrite existsb_exists. split.
  - intros [y [H1 H2]]. apply str_eqb_eq in H2. subst. assumption.
  - intros H. exists x. split; auto. apply str_eqb_refl.
Qed.
Lemma mem_N_In : forall x l, mem_N x l = true <-> In x l.
Proof.
  intros x l. unfold mem_N. rewrite existsb_exists. split.
  - intros [y [H1 H2]]. apply N.eqb_eq in H2. subst. assumption.
  - intros H. exists x. split; auto. apply N.eqb_refl.
Qed.

(** ** Splitting *)
Lemma split_by_nonempty : forall p s, split_by p s <> [].
Proof.
  intros p s. destruct s as [|x s]; simpl; [congruence|].
  destruct (p x); [congruence|]. destruct (split_by p s); congruence.
Qed.
Lemma split_nonempty : forall c s, split c s <> [].
Proof. intros. apply split_by_nonempty. Qed.

Lemma split_by_none : forall p s, forallb (fun x => negb (p x)) s = true -> split_by p s = [s].
Proof.
  intros p s. induction s as [|x s IH]; simpl; auto. intros H.
  apply andb_true_iff in H. destruct H as [H1 H2]. apply negb_true_iff in H1.
  rewrite H1, IH; auto.
Qed.
Lemma split_by_app : forall p a x b,
  forallb (fun x => negb (p x)) a = true -> p x = true ->
  split_by p (a ++ x :: b) = a :: split_by p b.
Proof.
  intros p a x b Ha Hx. induction a as [|y a IH]; simpl.
  - rewrite Hx. reflexivity.
  - simpl in Ha. apply andb_true_iff in Ha. destruct Ha as [H1 H2].
    apply negb_true_iff in H1. rewrite H1, IH; auto.
Qed.
Lemma split_none : forall c s, contains c s = false -> split c s = [s].
Proof. intros c s H. apply split_by_none. apply contains_forallb. auto. Qed.
Lemma split_app : forall c a b, contains c a = false -> split c (a ++ c :: b) = a :: split c b.
Proof.
  intros c a b H. apply split_by_app. apply contains_forallb; auto. apply N.eqb_refl.
Qed.

Lemma split_by_join_raw : forall p s,
  Forall (fun t => forallb (fun x => negb (p x)) t = true) (split_by p s).
Proof.
  intros p s. induction s as [|x s IH]; simpl.
  - constructor; auto.
  - destruct (p x) eqn:Hx.
    + constructor; auto.
    + destruct (split_by p s) as [|h t] eqn:Hs.
      * constructor; auto. simpl. rewrite Hx. reflexivity.
      * inv IH. constructor; auto. simpl. rewrite Hx. auto.
Qed.
Lemma split_pieces : forall c s t, In t (split c s) -> contains c t = false.
Proof.
  intros c s t H. apply contains_forallb.
  pose proof (split_by_join_raw (N.eqb c) s) as K. rewrite Forall_forall in K.
  apply K in H. exact H.
Qed.
Lemma split_chars : forall c s t x, In t (split c s) -> In x t -> In x s.
Proof.
  intros c s. unfold split. induction s as [|y s IH]; simpl; intros t x Ht Hx.
  - destruct Ht as [<-|[]]; auto.
  - destruct (c =? y) eqn:Hy.
    + destruct Ht as [<-|Ht]; [destruct Hx|]. right. eapply IH; eauto.
    + destruct (split_by (N.eqb c) s) as [|h t'] eqn:Hs.
      * destruct Ht as [<-|[]]. destruct Hx as [->|[]]. auto.
      * destruct Ht as [<-|Ht].
        -- destruct Hx as [->|Hx]; auto. right. apply (IH h); auto. left; auto.
        -- right. apply (IH t); auto. right; auto.
Qed.
Lemma join_cons : forall sep x l, l <> [] -> join sep (x :: l) = x ++ sep ++ join sep l.
Proof. intros sep x l H. destruct l; [congruence|reflexivity]. Qed.
Lemma join_split : forall c s, join [c] (split c s) = s.
Proof.
  intros c s. unfold split. induction s as [|x s IH]; simpl; auto.
  destruct (c =? x) eqn:Hx.
  - apply N.eqb_eq in Hx. subst x. rewrite join_cons by apply split_by_nonempty.
    rewrite IH. reflexivity.
  - destruct (split_by (N.eqb c) s) as [|h t] eqn:Hs.
    + exfalso. eapply split_by_nonempty; eauto.
    + destruct t as [|h2 t]; simpl in *; rewrite <- IH; reflexivity.
Qed.
Lemma split_join : forall c l, l <> [] -> Forall (fun t => contains c t = false) l ->
  split c (join [c] l) = l.
Proof.
  intros c l Hne H. induction H as [|x l Hx Hl IH]; [congruence|].
  destruct l as [|y l].
  - apply split_none. auto.
  - rewrite join_cons by congruence. cbn [app]. rewrite split_app by auto.
    rewrite IH; [reflexivity|congruence].
Qed.

Lemma split_once_none : forall c s, contains c s = false -> split_once c s = None.
Proof.
  intros c s. induction s as [|x s IH]; simpl; auto. intros H.
  apply orb_false_iff in H. destruct H as [H1 H2]. rewrite H1, IH; auto.
Qed.
Lemma split_once_app : forall c a b, contains c a = false ->
  split_once c (a ++ c :: b) = Some (a, b).
Proof.
  intros c a b. induction a as [|x a IH]; simpl; intros H.
  - rewrite N.eqb_refl. reflexivity.
  - apply orb_false_iff in H. destruct H as [H1 H2]. rewrite H1, IH; auto.
Qed.
Lemma split_once_some : forall c s a b, split_once c s = Some (a, b) ->
  s = a ++ c :: b /\ contains c a = false.
Proof.
  intros c s. induction s as [|x s IH]; simpl; intros a b H; [discriminate|].
  destruct (c =? x) eqn:Hx.
  - inv H. apply N.eqb_eq in Hx. subst. split; auto.
  - destruct (split_once c s) as [[a' b']|] eqn:Hs; [|discriminate]. inv H.
    destruct (IH a' b eq_refl) as [H1 H2]. subst. split; auto.
    rewrite contains_cons, Hx. auto.
Qed.
Lemma split_once_none_inv : forall c s, split_once c s = None -> contains c s = false.
Proof.
  intros c s H. destruct (contains c s) eqn:Hc; auto.
  apply contains_In in Hc. apply in_split in Hc. destruct Hc as [a [b ->]].
  exfalso. revert H. clear. induction a as [|x a IH]; simpl.
  - rewrite N.eqb_refl. discriminate.
  - destruct (c =? x); [discriminate|]. destruct (split_once c (a ++ c :: b)) as [[]|]; [discriminate|auto].
Qed.

Lemma splitn2_none : forall c s, contains c s = false -> splitn 2 c s = [s].
Proof. intros. simpl. rewrite split_once_none; auto. Qed.
Lemma splitn2_app : forall c a b, contains c a = false -> splitn 2 c (a ++ c :: b) = [a; b].
Proof. intros. simpl. rewrite split_once_app; auto. Qed.
Lemma splitn2_cases : forall c s,
  (contains c s = false /\ splitn 2 c s = [s]) \/
  (exists a b, s = a ++ c :: b /\ contains c a = false /\ splitn 2 c s = [a; b]).
Proof.
  intros c s. simpl. destruct (split_once c s) as [[a b]|] eqn:H.
  - right. apply split_once_some in H. destruct H as [H1 H2]. exists a, b. auto.
  - left. apply split_once_none_inv in H. auto.
Qed.
Lemma splitn_S : forall n c a b, contains c a = false ->
  splitn (S (S n)) c (a ++ c :: b) = a :: splitn (S n) c b.
Proof.
  intros. cbn [splitn]. rewrite split_once_app; auto.
Qed.
Lemma splitn_none : forall n c s, contains c s = false -> splitn (S n) c s = [s].
Proof. intros. destruct n; cbn [splitn]; auto. rewrite split_once_none; auto. Qed.

(** ** Whitespace tokens *)
Definition no_ws (s : str) : bool := forallb (fun c => negb (is_ws c)) s.
Definition token (s : str) : Prop := s <> [] /\ no_ws s = true.
Lemma no_ws_app : forall a b, no_ws (a ++ b) = no_ws a && no_ws b.
Proof. intros. apply forallb_app. Qed.

Lemma sws_nil : split_whitespace [] = [].
Proof. reflexivity. Qed.
Lemma sws_one : forall t, token t -> split_whitespace t = [t].
Proof.
  intros t [H1 H2]. unfold split_whitespace. rewrite split_by_none by exact H2.
  simpl. destruct t; simpl; congruence.
Qed.
Lemma sws_cons : forall t w s, token t -> is_ws w = true ->
  split_whitespace (t ++ w :: s) = t :: split_whitespace s.
Proof.
  intros t w s [H1 H2] Hw. unfold split_whitespace. rewrite split_by_app by auto.
  simpl. destruct t; simpl; congruence.
Qed.
Lemma sws_ws : forall w s, is_ws w = true -> split_whitespace (w :: s) = split_whitespace s.
Proof. intros w s H. unfold split_whitespace. simpl. rewrite H. reflexivity. Qed.
Lemma sws_tokens : forall s, Forall token (split_whitespace s).
Proof.
  intros s. unfold split_whitespace. apply Forall_forall. intros t H.
  apply filter_In in H. destruct H as [H1 H2].
  pose proof (split_by_join_raw is_ws s) as K. rewrite Forall_forall in K.
  split; [destruct t; simpl in *; congruence|apply K; auto].
Qed.
Lemma sws_join : forall l, Forall token l -> split_whitespace (join sp l) = l.
Proof.
  intros l H. induction H as [|x l Hx Hl IH]; auto.
  destruct l as [|y l].
  - apply sws_one; auto.
  - rewrite join_cons by congruence. change (sp ++ join sp (y :: l)) with (c_space :: join sp (y :: l)).
    rewrite sws_cons by auto. rewrite IH. reflexivity.
Qed.
Lemma is_ws_space : is_ws c_space = true.
Proof. reflexivity. Qed.
Lemma sws_cons_sp : forall t s, token t ->
  split_whitespace (t ++ sp ++ s) = t :: split_whitespace s.
Proof. intros. apply sws_cons; auto. Qed.

(** ** Trimming *)
Definition starts_ok (s : str) : Prop := exists c s', s = c :: s' /\ is_ws c = false.
Definition ends_ok (s : str) : Prop := exists s' c, s = s' ++ [c] /\ is_ws c = false.
Definition trimmed (s : str) : Prop := starts_ok s /\ ends_ok s.

Lemma starts_ok_app : forall a b, starts_ok a -> starts_ok (a ++ b).
Proof. intros a b [c [s [-> H]]]. exists c, (s ++ b). auto. Qed.
Lemma ends_ok_app : forall a b, ends_ok b -> ends_ok (a ++ b).
Proof. intros a b [s [c [-> H]]]. exists (a ++ s), c. rewrite app_assoc. auto. Qed.
Lemma starts_ok_cons : forall c s, is_ws c = false -> starts_ok (c :: s).
Proof. intros. exists c, s. auto. Qed.
Lemma ends_ok_cons : forall c s, ends_ok s -> ends_ok (c :: s).
Proof. intros c s H. apply (ends_ok_app [c] s H). Qed.
Lemma ends_ok_one : forall c, is_ws c = false -> ends_ok [c].
Proof. intros. exists [], c. auto. Qed.

Lemma trim_start_id : forall s, starts_ok s -> trim_start s = s.
Proof. intros s [c [s' [-> H]]]. simpl. rewrite H. reflexivity. Qed.
Lemma trim_end_id : forall s, ends_ok s -> trim_end s = s.
Proof.
  intros s [s' [c [-> H]]]. unfold trim_end. rewrite rev_unit. simpl. rewrite H.
  change (c :: rev s') with ([c] ++ rev s'). rewrite rev_app_distr, rev_involutive. reflexivity.
Qed.
Lemma trim_id : forall s, trimmed s -> trim s = s.
Proof. intros s [H1 H2]. unfold trim. rewrite trim_start_id, trim_end_id; auto. Qed.
Lemma trim_nil : trim [] = [].
Proof. reflexivity. Qed.

Lemma token_starts : forall t, token t -> starts_ok t.
Proof.
  intros t [H1 H2]. destruct t as [|c t]; [congruence|]. exists c, t. split; auto.
  simpl in H2. destruct (is_ws c); auto.
Qed.
Lemma token_ends : forall t, token t -> ends_ok t.
Proof.
  intros t [H1 H2]. destruct (exists_last H1) as [s [c ->]]. exists s, c. split; auto.
  rewrite no_ws_app in H2. apply andb_true_iff in H2. destruct H2 as [_ H2].
  simpl in H2. destruct (is_ws c); auto.
Qed.
Lemma token_trimmed : forall t, token t -> trimmed t.
Proof. intros. split; [apply token_starts|apply token_ends]; auto. Qed.

Lemma trim_start_cases : forall s, trim_start s = [] \/ starts_ok (trim_start s).
Proof.
  induction s as [|c s IH]; simpl; auto. destruct (is_ws c) eqn:H; auto.
  right. exists c, s. auto.
Qed.
Lemma trim_start_prefix : forall s, exists w, s = w ++ trim_start s /\ forallb is_ws w = true.
Proof.
  induction s as [|c s IH]; simpl.
  - exists []. auto.
  - destruct (is_ws c) eqn:H.
    + destruct IH as [w [H1 H2]]. exists (c :: w). simpl. rewrite H, <- H1. auto.
    + exists []. auto.
Qed.
Lemma forallb_rev : forall {A} (f : A -> bool) l, forallb f (rev l) = forallb f l.
Proof.
  intros A f l. induction l as [|x l IH]; simpl; auto.
  rewrite forallb_app, IH. simpl. rewrite andb_true_r, andb_comm. reflexivity.
Qed.
Lemma trim_end_suffix : forall s, exists w, s = trim_end s ++ w /\ forallb is_ws w = true.
Proof.
  intros s. destruct (trim_start_prefix (rev s)) as [w [H1 H2]].
  exists (rev w). unfold trim_end. split.
  - rewrite <- rev_app_distr, <- H1, rev_involutive. reflexivity.
  - rewrite forallb_rev. auto.
Qed.
Lemma trim_decompose : forall s, exists w1 w2,
  s = w1 ++ trim s ++ w2 /\ forallb is_ws w1 = true /\ forallb is_ws w2 = true.
Proof.
  intros s. destruct (trim_start_prefix s) as [w1 [H1 H2]].
  destruct (trim_end_suffix (trim_start s)) as [w2 [H3 H4]].
  exists w1, w2. split; auto. unfold trim. rewrite <- H3. auto.
Qed.
Lemma trim_end_cases : forall s, trim_end s = [] \/ ends_ok (trim_end s).
Proof.
  intros s. unfold trim_end. destruct (trim_start_cases (rev s)) as [H|[c [r [H K]]]].
  - left. rewrite H. reflexivity.
  - right. rewrite H. exists (rev r), c. auto.
Qed.
Lemma trim_end_starts : forall s, starts_ok s -> starts_ok (trim_end s).
Proof.
  intros s [c [s' [-> H]]].
  destruct (trim_end_suffix (c :: s')) as [w [H1 H2]].
  destruct (trim_end (c :: s')) as [|x r].
  - simpl in H1. subst w. simpl in H2. rewrite H in H2. discriminate.
  - inv H1. exists x, r. auto.
Qed.
Lemma trim_cases : forall s, trim s = [] \/ trimmed (trim s).
Proof.
  intros s. unfold trim. destruct (trim_start_cases s) as [H|H].
  - left. rewrite H. reflexivity.
  - destruct (trim_end_cases (trim_start s)) as [K|K]; auto.
    right. split; auto. apply trim_end_starts; auto.
Qed.
Lemma trim_idem : forall s, trim (trim s) = trim s.
Proof.
  intros s. destruct (trim_cases s) as [H|H].
  - rewrite H. reflexivity.
  - apply trim_id; auto.
Qed.
Lemma trim_chars : forall s x, In x (trim s) -> In x s.
Proof.
  intros s x H. destruct (trim_decompose s) as [w1 [w2 [H1 _]]]. rewrite H1.
  apply in_or_app. right. apply in_or_app. auto.
Qed.
Lemma trim_start_ws_app : forall w s, forallb is_ws w = true -> trim_start (w ++ s) = trim_start s.
Proof.
  induction w as [|c w IH]; simpl; intros s H; auto.
  apply andb_true_iff in H. destruct H as [H1 H2]. rewrite H1. auto.
Qed.
Lemma trim_start_all_ws : forall w, forallb is_ws w = true -> trim_start w = [].
Proof. intros w H. rewrite <- (app_nil_r w), trim_start_ws_app; auto. Qed.
Lemma trim_end_ws_app : forall s w, forallb is_ws w = true -> trim_end (s ++ w) = trim_end s.
Proof.
  intros. unfold trim_end. rewrite rev_app_distr, trim_start_ws_app; auto.
  rewrite forallb_rev. auto.
Qed.
Lemma trim_all_ws : forall w, forallb is_ws w = true -> trim w = [].
Proof. intros. unfold trim. rewrite trim_start_all_ws; auto. Qed.
(** Trimming ignores whitespace put around a string. *)
Lemma trim_pad : forall w1 s w2, forallb is_ws w1 = true -> forallb is_ws w2 = true ->
  trim (w1 ++ s ++ w2) = trim s.
Proof.
  intros w1 s w2 H1 H2. unfold trim. rewrite trim_start_ws_app by auto.
  destruct (trim_start_cases s) as [K|K].
  - destruct (trim_start_prefix s) as [w [H3 H4]]. rewrite K, app_nil_r in H3. subst w.
    rewrite trim_start_ws_app by auto.
    rewrite K. rewrite trim_start_all_ws; auto.
  - destruct (trim_start_prefix s) as [w [H3 H4]].
    rewrite H3 at 1. rewrite <- app_assoc, trim_start_ws_app by auto.
    rewrite trim_start_id by (apply starts_ok_app; auto).
    apply trim_end_ws_app; auto.
Qed.
Lemma trim_empty_iff : forall s, trim s = [] <-> forallb is_ws s = true.
Proof.
  intros s. split; intros H.
  - destruct (trim_decompose s) as [w1 [w2 [H1 [H2 H3]]]]. rewrite H in H1. simpl in H1.
    rewrite H1, forallb_app, H2, H3. reflexivity.
  - apply trim_all_ws; auto.
Qed.

Lemma sws_app_ws_end : forall s w, forallb is_ws w = true ->
  split_whitespace (s ++ w) = split_whitespace s.
Proof.
  intros s w H. unfold split_whitespace.
  assert (K : forall s, filter (fun t => negb (is_empty t)) (split_by is_ws (s ++ w)) =
              filter (fun t => negb (is_empty t)) (split_by is_ws s) /\
              hd [] (split_by is_ws (s ++ w)) = hd [] (split_by is_ws s)).
  { clear s. induction s as [|c s [IH1 IH2]]; simpl.
    - clear -H. induction w as [|c w IH]; simpl; auto.
      simpl in H. apply andb_true_iff in H. destruct H as [H1 H2]. rewrite H1. simpl.
      destruct IH as [K1 K2]; auto.
    - destruct (is_ws c); simpl; [split; [apply IH1|reflexivity]|].
      destruct (split_by is_ws (s ++ w)) as [|h t] eqn:E1;
        [exfalso; eapply split_by_nonempty; eauto|].
      destruct (split_by is_ws s) as [|h' t'] eqn:E2;
        [exfalso; eapply split_by_nonempty; eauto|].
      simpl in *. subst h'. split; auto.
      destruct h; simpl in *; congruence. }
  apply K.
Qed.
Lemma sws_app_ws_start : forall w s, forallb is_ws w = true ->
  split_whitespace (w ++ s) = split_whitespace s.
Proof.
  induction w as [|c w IH]; simpl; intros s H; auto.
  apply andb_true_iff in H. destruct H as [H1 H2]. rewrite sws_ws by auto. auto.
Qed.
Lemma sws_trim : forall s, split_whitespace (trim s) = split_whitespace s.
Proof.
  intros s. destruct (trim_decompose s) as [w1 [w2 [H1 [H2 H3]]]].
  rewrite H1 at 2. rewrite sws_app_ws_start, sws_app_ws_end by auto. reflexivity.
Qed.
Lemma sws_chars : forall s t x, In t (split_whitespace s) -> In x t -> In x s.
Proof.
  intros s t x Ht Hx. unfold split_whitespace in Ht. apply filter_In in Ht.
  destruct Ht as [Ht _]. revert t x Ht Hx.
  induction s as [|y s IH]; simpl; intros t x Ht Hx.
  - destruct Ht as [<-|[]]; auto.
  - destruct (is_ws y) eqn:Hy.
    + destruct Ht as [<-|Ht]; [destruct Hx|]. right. eapply IH; eauto.
    + destruct (split_by is_ws s) as [|h t'] eqn:Hs.
      * destruct Ht as [<-|[]]. destruct Hx as [->|[]]. auto.
      * destruct Ht as [<-|Ht].
        -- destruct Hx as [->|Hx]; auto. right. apply (IH h); auto. left; auto.
        -- right. apply (IH t); auto. right; auto.
Qed.

(** ** Lines *)
Definition no_lf (s : str) : Prop := contains c_lf s = false.
Lemma no_lf_app : forall a b, no_lf a -> no_lf b -> no_lf (a ++ b).
Proof. unfold no_lf. intros. rewrite contains_app, H, H0. reflexivity. Qed.

Lemma strip_cr_app : forall s, strip_cr (s ++ [c_cr]) = s.
Proof. intros. unfold strip_cr. rewrite rev_unit. simpl. apply rev_involutive. Qed.
Lemma lines_of_cons : forall x l, l <> [] -> lines_of (x :: l) = strip_cr x :: lines_of l.
Proof. intros x l H. destruct l; [congruence|reflexivity]. Qed.
Lemma lines_nil : lines [] = [].
Proof. reflexivity. Qed.
Lemma lines_crlf : forall x s, no_lf x -> lines (x ++ crlf ++ s) = x :: lines s.
Proof.
  intros x s H. unfold lines, crlf. cbn [app].
  change (x ++ c_cr :: c_lf :: s) with (x ++ [c_cr] ++ c_lf :: s).
  rewrite app_assoc, split_app.
  - rewrite lines_of_cons by apply split_nonempty. rewrite strip_cr_app. reflexivity.
  - apply no_lf_app; [auto|reflexivity].
Qed.
Lemma lines_lf : forall x s, no_lf x -> lines (x ++ c_lf :: s) = strip_cr x :: lines s.
Proof.
  intros x s H. unfold lines. rewrite split_app by auto.
  rewrite lines_of_cons by apply split_nonempty. reflexivity.
Qed.
Lemma lines_last : forall x, no_lf x -> x <> [] -> lines x = [x].
Proof.
  intros x H Hx. unfold lines. rewrite split_none by auto. simpl.
  destruct x; simpl; congruence.
Qed.
Lemma lines_flat : forall l s, Forall no_lf l ->
  lines (flat_map (fun x => x ++ crlf) l ++ s) = l ++ lines s.
Proof.
  intros l s H. induction H as [|x l Hx Hl IH]; auto.
  simpl. rewrite <- !app_assoc. rewrite lines_crlf by auto. rewrite IH. reflexivity.
Qed.
Lemma strip_cr_chars : forall s x, In x (strip_cr s) -> In x s.
Proof.
  intros s x H. unfold strip_cr in H. destruct (rev s) as [|c r] eqn:Hr; auto.
  destruct (c =? c_cr); auto. apply in_rev. rewrite Hr. right. apply in_rev; auto.
Qed.
Lemma lines_no_lf : forall s x, In x (lines s) -> no_lf x.
Proof.
  intros s x H. unfold lines in H. apply contains_not_In. intros K.
  assert (P : forall t, In t (split c_lf s) -> ~ In c_lf t).
  { intros t Ht. apply contains_not_In. eapply split_pieces; eauto. }
  revert P H K. generalize (split c_lf s). intros l. induction l as [|y l IH]; simpl; auto.
  intros P H K. destruct l as [|z l].
  - destruct (is_empty y); [destruct H|]. destruct H as [<-|[]]. apply (P y); auto.
  - destruct H as [<-|H].
    + apply (P y); auto. apply strip_cr_chars; auto.
    + apply IH; auto.
Qed.

(** ** Case *)
Definition ascii (c : char) : bool := c <? 128.
Definition lower_fixed (c : char) : bool := negb ((65 <=? c) && (c <=? 90)) && negb (c =? 8490).
Lemma to_lower_fixed : forall s, forallb lower_fixed s = true -> to_lower s = s.
Proof.
  unfold to_lower. induction s as [|c s IH]; simpl; auto. intros H.
  apply andb_true_iff in H. destruct H as [H1 H2]. unfold lower_fixed in H1.
  apply andb_true_iff in H1. destruct H1 as [H1 H3].
  apply negb_true_iff in H1. apply negb_true_iff in H3.
  unfold lower_char. rewrite H1, H3. cbn [app]. f_equal. auto.
Qed.
Lemma to_lower_app : forall a b, to_lower (a ++ b) = to_lower a ++ to_lower b.
Proof. intros. unfold to_lower. apply flat_map_app. Qed.
Lemma to_upper_app : forall a b, to_upper (a ++ b) = to_upper a ++ to_upper b.
Proof. intros. unfold to_upper. apply flat_map_app. Qed.

(** ** Lengths *)
Lemma byte_len_app : forall a b, byte_len (a ++ b) = byte_len a + byte_len b.
Proof.
  induction a as [|c a IH]; intros b; simpl; auto. rewrite IH. lia.
Qed.
Lemma utf8_len_pos : forall c, 1 <= utf8_len c.
Proof. intros c. unfold utf8_len. destruct (c <? 128), (c <? 2048), (c <? 65536); lia. Qed.
Lemma byte_len_length : forall s, N.of_nat (List.length s) <= byte_len s.
Proof.
  induction s as [|c s IH]; simpl; [lia|]. pose proof (utf8_len_pos c). lia.
Qed.

(** ** Monadic helpers *)
Lemma mapM_ok : forall {E A B} (f : A -> res E B) l ys,
  mapM f l = Ok ys <-> Forall2 (fun x y => f x = Ok y) l ys.
Proof.
  intros E A B f l. induction l as [|x l IH]; simpl; intros ys; split; intros H.
  - inv H. constructor.
  - inv H. reflexivity.
  - destruct (f x) eqn:Hx; try discriminate. simpl in H.
    destruct (mapM f l) eqn:Hl; try discriminate. simpl in H. inv H.
    constructor; auto. apply IH. reflexivity.
  - inv H. rewrite H2. simpl. apply IH in H4. rewrite H4. reflexivity.
Qed.
Lemma mapM_map : forall {E A B} (f : A -> res E B) (g : B -> A) l,
  Forall (fun y => f (g y) = Ok y) l -> mapM f (map g l) = Ok l.
Proof.
  intros E A B f g l H. apply mapM_ok. induction H; simpl; constructor; auto.
Qed.
Lemma mapM_no_panic : forall {E A B} (f : A -> res E B) l,
  (forall x, In x l -> f x <> Panic) -> mapM f l <> Panic.
Proof.
  intros E A B f l. induction l as [|x l IH]; simpl; intros H; [discriminate|].
  destruct (f x) eqn:Hx; simpl; try discriminate.
  - destruct (mapM f l) eqn:Hl; simpl; try discriminate. exfalso. apply IH; auto.
  - intros _. apply (H x); auto.
Qed.
Lemma foldM_no_panic : forall {E A B} (f : B -> A -> res E B) l acc,
  (forall b x, In x l -> f b x <> Panic) -> foldM f l acc <> Panic.
Proof.
  intros E A B f l. induction l as [|x l IH]; simpl; intros acc H; [discriminate|].
  destruct (f acc x) eqn:Hx; simpl; try discriminate.
  - apply IH; auto.
  - intros _. apply (H acc x); auto.
Qed.
Lemma foldM_inv : forall {E A B} (f : B -> A -> res E B) (P : B -> Prop) l acc r,
  (forall b x b', In x l -> P b -> f b x = Ok b' -> P b') ->
  P acc -> foldM f l acc = Ok r -> P r.
Proof.
  intros E A B f P l. induction l as [|x l IH]; simpl; intros acc r H Ha Hr.
  - inv Hr. auto.
  - destruct (f acc x) eqn:Hx; try discriminate. simpl in Hr.
    eapply IH; [|eapply H; eauto|eauto]. intros. eapply H; eauto.
Qed.
Lemma foldM_app : forall {E A B} (f : B -> A -> res E B) l1 l2 acc,
  foldM f (l1 ++ l2) acc = bind (foldM f l1 acc) (foldM f l2).
Proof.
  intros E A B f l1. induction l1 as [|x l1 IH]; simpl; intros; auto.
  destruct (f acc x); simpl; auto.
Qed.
Lemma idx_ok : forall {E A} (l : list A) i x, idx (E:=E) l i = Ok x <-> nth_error l i = Some x.
Proof.
  intros E A l i x. unfold idx. destruct (nth_error l i); split; intros H; inv H; auto.
Qed.
Lemma idx_no_panic : forall {E A} (l : list A) i, (i < List.length l)%nat ->
  exists x, idx (E:=E) l i = Ok x /\ nth_error l i = Some x.
Proof.
  intros E A l i H. unfold idx. destruct (nth_error l i) eqn:K.
  - eauto.
  - apply nth_error_None in K. lia.
Qed.
Lemma bind_ok : forall {E A B} (x : res E A) (f : A -> res E B) b,
  bind x f = Ok b <-> exists a, x = Ok a /\ f a = Ok b.
Proof.
  intros E A B x f b. destruct x; simpl; split; intros H.
  - eauto.
  - destruct H as [a' [H1 H2]]. inv H1. auto.
  - discriminate.
  - destruct H as [a' [H1 H2]]. discriminate.
  - discriminate.
  - destruct H as [a' [H1 H2]]. discriminate.
Qed.
Lemma bind_no_panic : forall {E A B} (x : res E A) (f : A -> res E B),
  x <> Panic -> (forall a, x = Ok a -> f a <> Panic) -> bind x f <> Panic.
Proof. intros E A B x f H1 H2. destruct x; simpl; try discriminate; auto. Qed.
Lemma assoc_str_In : forall {A} s (t : list (str * A)) v, assoc_str s t = Some v -> In (s, v) t.
Proof.
  intros A s t v. induction t as [|[k w] t IH]; simpl; [discriminate|].
  destruct (str_eqb s k) eqn:H; intros K.
  - apply str_eqb_eq in H. inv K. auto.
  - auto.
Qed.
Lemma filter_all : forall {A} (f : A -> bool) l, forallb f l = true -> filter f l = l.
Proof.
  intros A f l. induction l as [|x l IH]; simpl; auto. intros H.
  apply andb_true_iff in H. destruct H as [H1 H2]. rewrite H1, IH; auto.
Qed.

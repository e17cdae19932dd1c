(** * Lemmas for C59: what is printed tells values apart *)
From Coq Require Import List NArith ZArith Bool Ascii String Lia.
From Verif Require Import Str Num Net Types Ext Show AttrParse Media Session SpecApi SpecDoc SpecVal SpecItems SpecPrint StrLemmas PPanic PDoc PDoc2 PVal9 PPrint PPrint2 PPrint3 PPrint4 PPrint5 PPrint6 PPrint7 PPrint8 PPrint9 PPrint10 PSections PEdit.
Import ListNotations.
Open Scope N_scope.
Open Scope list_scope.
Section WithExt.
Context {E : Ext} (X : ext_ok E).

Lemma countable_short : forall t n, (Z.of_nat n < 2147483648)%Z -> countable t n.
Proof. intros t n H. destruct t; try exact I. destruct a; try exact I. exact H. Qed.
Lemma lines_mean_fun : forall ls a, lines_mean ls a -> forall b, lines_mean ls b -> Forall (fun x : str => (Z.of_nat (List.length x) < 2147483648)%Z) ls -> a = b.
Proof.
  intros ls a H. induction H as [|line rest ts B H IH|line rest ty ts B M H IH]; intros b K F.
  - inversion K. reflexivity.
  - inversion K as [|? ? ? B' K'|? ? ? ? B' M' K']; subst; [|contradiction]. apply IH; [exact K' | exact (Forall_inv_tail F)].
  - inversion K as [|? ? ? B' K'|? ? ty' ts' B' M' K']; subst; [contradiction|]. f_equal; [|apply IH; [exact K' | exact (Forall_inv_tail F)]].
    exact (line_means_fun _ _ _ (countable_short _ _ (Forall_inv F)) (countable_short _ _ (Forall_inv F)) M M').
Qed.
Lemma printed_means : forall s, session_wf s -> ~ session_lossy s -> lines_mean (lines (show_session s)) (printed_items s).
Proof.
  intros s W L. pose proof W as (Wi & Wc & _).
  assert (Li : forall ty, In ty (session_items s) -> ~ item_lossy ty) by (intros ty H K; apply L, Exists_exists; eauto).
  destruct (session_lines_ok X s Wc) as (_ & T & _).
  assert (Lm : session_lines s = map printed_line (printed_items s)).
  { apply session_lines_map. intros a Ha. destruct (Forall_in _ _ _ Wi Ha) as [R Wa]. apply (show_attr_nonempty X); [exact R | exact Wa | exact (Li _ Ha)]. }
  rewrite T, Lm. apply lines_mean_printed. apply Forall_forall. intros ty Hty. destruct (in_printed _ _ Hty) as [H| ->].
  - apply (item_prints X); [exact (Forall_in _ _ _ Wi H) | exact (Li _ H)].
  - apply (item_prints X); [split; exact I | intros []].
Qed.
Lemma assembles_one : forall ts s s', Assembles ts s -> Assembles ts s' -> with_warnings s [] = with_warnings s' [].
Proof.
  intros ts s s' A A'. apply (Assembles_warnings _ _ []) in A, A'. apply Assembles_iff in A, A'; [|reflexivity|reflexivity].
  destruct A as (v & o & name & hd & secs & -> & F & O & ->). destruct A' as (v' & o' & name' & hd' & secs' & Q & F' & O' & ->).
  change ((TyVersion v :: TyOrigin o :: TySession name :: hd) ++ flat_map section_lines secs = (TyVersion v' :: TyOrigin o' :: TySession name' :: hd') ++ flat_map section_lines secs') in Q.
  apply split_unique in Q; [|apply head_is_free; assumption | apply head_is_free; assumption | exact (secs_free _ O) | exact (secs_free _ O')].
  destruct Q as [Qh ->]. injection Qh as -> -> -> ->. reflexivity.
Qed.
Lemma sessions_apart : forall s s', session_wf s -> session_wf s' -> ~ session_lossy s -> ~ session_lossy s' ->
  (Z.of_nat (List.length (show_session s)) < 2147483648)%Z -> show_session s = show_session s' -> with_warnings s [] = with_warnings s' [].
Proof.
  intros s s' W W' L L' C Q. assert (M := printed_means s W L). assert (M' := printed_means s' W' L'). rewrite <- Q in M'.
  assert (P : printed_items s = printed_items s').
  { apply (lines_mean_fun _ _ M _ M'). apply Forall_forall. intros x Hx. apply lines_length in Hx. lia. }
  assert (A := printed_assembles s W). rewrite P in A. exact (assembles_one _ _ _ A (printed_assembles s' W')).
Qed.
Lemma items_apart : forall a b, item_wf a -> item_wf b -> ~ item_lossy a -> ~ item_lossy b ->
  (Z.of_nat (List.length (printed_line a)) < 2147483648)%Z -> printed_line a = printed_line b -> a = b.
Proof.
  intros a b W W' L L' C Q. assert (M := item_prints X a W L). assert (M' := item_prints X b W' L'). rewrite <- Q in M'.
  exact (line_means_fun (printed_line a) _ _ (countable_short _ _ C) (countable_short _ _ C) M M').
Qed.
End WithExt.

(** * Proofs: lines before a document (C93) *)
From Coq Require Import List Arith NArith ZArith Lia Bool Ascii String.
From Coq Require Import ZifyBool ZifyNat ZifyN.
From Verif Require Import Str Num Net Types Ext AttrParse Media Session SpecDoc SpecOnce SpecAhead.
From Verif Require Import StrLemmas PDoc PDoc2 PDoc3 POrder POnce.
Import ListNotations.
Open Scope nat_scope.
Open Scope list_scope.

Section WithExt.
Context {E : Ext}.
Lemma lines_lf_app : forall n a b, List.length a <= n -> lines (a ++ c_lf :: b) = lines (a ++ [c_lf]) ++ lines b.
Proof.
  induction n as [|n IH]; intros a b L.
  - destruct a; [|cbn in L; lia]. exact (lines_lf [] b eq_refl).
  - destruct (split_once c_lf a) as [[p q]|] eqn:S.
    + apply split_once_some in S. destruct S as [-> N]. rewrite app_length in L. cbn [List.length] in L.
      rewrite <- !app_assoc. cbn [app]. rewrite (lines_lf p (q ++ c_lf :: b) N), (lines_lf p (q ++ [c_lf]) N). rewrite (IH q b) by lia. reflexivity.
    + apply split_once_none_inv in S. rewrite (lines_lf a b S), (lines_lf a [] S). reflexivity.
Qed.
Lemma nothing_read : forall n ls ts ws, Reads n ls ts ws -> ts = [] ->
  Forall (fun x => skipped (match ws with [] => true | _ => false end) x) ls.
Proof.
  intros n ls ts ws R. induction R; intro T; try discriminate; [constructor| |].
  - constructor; [left; assumption|auto].
  - constructor; [right; eauto|]. eapply Forall_impl; [|exact (IHR T)]. intros x [B|(_ & B)]; [left; exact B|right; auto].
Qed.
Lemma skipped_read : forall b ls, Forall (skipped b) ls -> forall n, exists ws, Reads n ls [] ws /\ (b = true -> ws = []).
Proof.
  intros b ls F. induction F as [|x ls H F IH]; intro n; [exists []; split; [constructor|reflexivity]|].
  destruct (IH (S n)) as (ws & R & W). destruct H as [B|(-> & B & m & e & P)]; [exists ws; split; [constructor; assumption|exact W]|].
  rewrite (line_renumber x n m) in P. destruct (parse_sdp_line x n) as [l|e'|] eqn:Q; try discriminate P.
  assert (K : e' = PUnsupported e x n).
  { destruct e'; cbn in P; try discriminate P. injection P as P1 P2.
    pose proof (line_renumber x n n) as K. rewrite Q in K. cbn in K. injection K as K. rewrite P1, P2, K. reflexivity. }
  subst e'. exists (PUnsupported e x n :: ws). split; [apply Reads_warning; assumption|discriminate].
Qed.
Lemma assembled_once : forall ts s s', 4 <= List.length ts -> Assembles ts s -> structural s -> Assembles ts s' -> structural s' ->
  with_warnings s' [] = with_warnings s [].
Proof.
  intros ts s s' L A S A' S'. 
  set (l := map (fun t => {| l_number := 0; l_type := t; l_text := [] |}) ts).
  assert (M : map l_type l = ts) by (unfold l; rewrite map_map; apply map_id).
  assert (K : parse_sdp_vector l = Ok (with_warnings s [])).
  { apply assembly. unfold l at 1. rewrite map_length. rewrite M. split; [exact L|]. split; [apply Assembles_warnings; exact A|].
    split; [apply structural_warnings; exact S|reflexivity]. }
  assert (K' : parse_sdp_vector l = Ok (with_warnings s' [])).
  { apply assembly. unfold l at 1. rewrite map_length. rewrite M. split; [exact L|]. split; [apply Assembles_warnings; exact A'|].
    split; [apply structural_warnings; exact S'|reflexivity]. }
  rewrite K in K'. unfold with_warnings in *. injection K'. intros. f_equal; congruence.
Qed.
Lemma ahead : forall a b s p b' s', parse_sdp a b = Ok s -> parse_sdp (p ++ c_lf :: a) b' = Ok s' ->
  Forall (skipped b') (lines (p ++ [c_lf])) /\ with_warnings s' [] = with_warnings s [].
Proof.
  intros a b s p b' s' P P'. apply document in P. apply document in P'.
  destruct P as (_ & ts & ws & R & _ & _ & L & A & S). destruct P' as (_ & ts' & ws' & R' & _ & W' & L' & A' & S').
  rewrite (lines_lf_app _ p a (le_n _)) in R'. apply Reads_app in R'. destruct R' as (t1 & t2 & w1 & w2 & R1 & R2 & -> & ->).
  pose proof (Reads_types _ _ _ _ R _ _ _ R2) as <-.
  assert (T : t1 = []).
  { destruct t1 as [|x t1]; [reflexivity|]. exfalso. destruct A as (name & head & secs & -> & _).
    pose proof A' as (name' & head' & secs' & H & _). cbn [app] in H. injection H as -> _.
    apply (opening_once [] (TyVersion (s_version s')) t1 (TyVersion (s_version s)) (TyOrigin (s_origin s) :: TySession name :: head ++ flat_map section_lines secs) s'
      (opens_version _ _)). exact A'. }
  subst t1. split; [|exact (assembled_once ts s s' L A S A' S')].
  eapply Forall_impl; [|exact (nothing_read _ _ _ _ R1 eq_refl)]. intros x [B|(Hb & B)]; [left; exact B|]. right. split; [|exact B].
  destruct b'; [|reflexivity]. specialize (W' eq_refl). destruct w1; [discriminate Hb|discriminate W'].
Qed.
Lemma ahead_back : forall a b s p b', parse_sdp a b = Ok s -> (b' = true -> s_warnings s = []) ->
  Forall (skipped b') (lines (p ++ [c_lf])) -> exists s', parse_sdp (p ++ c_lf :: a) b' = Ok s'.
Proof.
  intros a b s p b' P Wb F. apply document in P. destruct P as (B & ts & ws & R & W & _ & L & A & S).
  destruct (skipped_read _ _ F 0) as (w1 & R1 & W1). destruct (Reads_renumber _ _ _ _ R (0 + List.length (lines (p ++ [c_lf])))) as (w2 & R2 & V).
  exists (with_warnings s (w1 ++ w2)). apply document. split.
  { rewrite byte_len_app. change (c_lf :: a) with ([c_lf] ++ a). rewrite byte_len_app. lia. }
  exists ts, (w1 ++ w2). split; [|split; [reflexivity|]].
  { rewrite (lines_lf_app _ p a (le_n _)). apply Reads_app. exists [], ts, w1, w2. auto. }
  split; [|split; [exact L|]; split; [apply Assembles_warnings; exact A|apply structural_warnings; exact S]].
  intro K. rewrite (W1 K). rewrite <- W, (Wb K) in V. destruct w2; [reflexivity|discriminate V].
Qed.
End WithExt.

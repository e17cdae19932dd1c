(** * What comes of a text (proofs for C70) *)
From Coq Require Import List NArith ZArith Bool Ascii String Lia.
From Coq Require Import ZifyBool ZifyNat ZifyN.
From Verif Require Import Str Num Net Types Ext Show Address AttrParse Media Session.
From Verif Require Import StrLemmas NumLemmas NetLemmas.
From Verif Require Import SpecApi SpecDoc SpecVal SpecUnsup SpecWarn SpecWhy SpecCause PPanic PDoc PDoc2 PDoc3 PDoc4.
From Verif Require Import PVal PVal8 PVal9 PUnsup PWarn PCause6.
From Verif Require Import SpecSeq PSeq SpecOutcome.
Import ListNotations.
Open Scope N_scope.
Open Scope list_scope.

Section WithExt.
Context {E : Ext}.

Lemma short_countable : forall ty n, short n -> countable ty n.
Proof. intros ty n H. destruct ty as [[]| | | | | | |]; cbn [countable]; try exact I; exact H. Qed.

(** ** Lines *)
Lemma kind_iff : forall line n k, short (List.length line) ->
  (is_kind line k <-> match k with
   | Meaning t => parse_sdp_line line n = Ok {| l_number := n; l_type := t; l_text := line |}
   | Unsupported => exists e, parse_sdp_line line n = Err (PUnsupported e line n)
   | Refused e => parse_sdp_line line n = Err (PLine e line n) end).
Proof.
  intros line n k L. destruct k as [t| |e]; cbn [is_kind].
  - rewrite (line_iff line n {| l_number := n; l_type := t; l_text := line |}) by (apply short_countable, L).
    cbn [l_number l_text l_type]. tauto.
  - symmetry. apply line_unsupported_iff.
  - symmetry. apply refused_why, L.
Qed.
Lemma line_kinds : ext_total E -> forall line, short (List.length line) -> exists k, is_kind line k /\ forall k', is_kind line k' -> k' = k.
Proof.
  intros T line L. pose proof (parse_sdp_line_np T line 0 L) as Np.
  assert (X : forall k, is_kind line k <-> match k with
   | Meaning t => parse_sdp_line line 0 = Ok {| l_number := 0; l_type := t; l_text := line |}
   | Unsupported => exists e, parse_sdp_line line 0 = Err (PUnsupported e line 0)
   | Refused e => parse_sdp_line line 0 = Err (PLine e line 0) end) by (intro k; apply (kind_iff line 0 k L)).
  destruct (parse_sdp_line line 0) as [l|p|] eqn:P; [| |congruence].
  - destruct (line_ok_fields _ _ _ P) as [Q1 Q2]. exists (Meaning (l_type l)). split.
    + apply X. destruct l as [a b c]. cbn in *. congruence.
    + intros k H. apply X in H. destruct k; [|destruct H; discriminate | discriminate]. assert (Z : l = {| l_number := 0; l_type := t; l_text := line |}) by congruence.
      rewrite Z. reflexivity.
  - destruct (line_err _ _ _ P) as [(e & ->)|(e & ->)].
    + exists Unsupported. split; [apply X; eauto|]. intros k H. apply X in H. destruct k; [discriminate | reflexivity | discriminate].
    + exists (Refused e). split; [apply X; reflexivity|]. intros k H. apply X in H.
      destruct k as [t| |e']; [discriminate | destruct H; discriminate | congruence].
Qed.

(** ** The first unsupported line *)
Lemma scan_first : forall ls n L H W, Scan n ls L H W -> forall w,
  hd_error W = Some w <-> exists pre line post, ls = pre ++ line :: post /\ none_unsupported pre /\ ~ blank line /\
    line_unsupported line /\ parse_sdp_line line (n + List.length pre) = Err w.
Proof.
  assert (Skip : forall x r n W, (~ blank x -> ~ line_unsupported x) ->
    (forall w, hd_error W = Some w <-> exists pre line post, r = pre ++ line :: post /\ none_unsupported pre /\ ~ blank line /\
      line_unsupported line /\ parse_sdp_line line (S n + List.length pre) = Err w) ->
    (forall w : perr, hd_error W = Some w <-> exists pre line post, x :: r = pre ++ line :: post /\ none_unsupported pre /\ ~ blank line /\
      line_unsupported line /\ parse_sdp_line line (n + List.length pre) = Err w)).
  { intros x r n W K IH w. rewrite IH. split.
    - intros (pre & line & post & -> & Np & Nb & U & P). exists (x :: pre), line, post. split; [reflexivity|].
      split; [|split; [exact Nb|]; split; [exact U|]; cbn [List.length]; rewrite <- plus_n_Sm; exact P].
      intros y [<-|I]; [exact K | apply Np, I].
    - intros (pre & line & post & Q & Np & Nb & U & P). destruct pre as [|y pre].
      + injection Q as <- <-. destruct (K Nb U).
      + injection Q as <- ->. exists pre, line, post. split; [reflexivity|].
        split; [intros z I; apply Np; right; exact I|]. split; [exact Nb|]. split; [exact U|].
        cbn [List.length] in P. rewrite <- plus_n_Sm in P. exact P. }
  intros ls n L H W S0. induction S0 as [n|n x r L H W B S0 IH|n x r L H W l B P S0 IH|n x r L H W e B P S0 IH|n x r L H W e B P S0 IH].
  - intro w. split; [discriminate|]. intros (pre & line & post & Q & _). destruct pre; discriminate.
  - apply Skip; [|exact IH]. intro Nb. contradiction.
  - apply Skip; [|exact IH]. intros _ U. apply (line_unsupported_iff x n) in U. destruct U as (m & U). congruence.
  - intro w. cbn [hd_error]. split.
    + intro Q. injection Q as <-. exists [], x, r. split; [reflexivity|]. split; [intros y []|]. split; [exact B|].
      split; [apply (line_unsupported_iff x n); eauto|]. cbn [List.length]. rewrite Nat.add_0_r. exact P.
    + intros (pre & line & post & Q & Np & Nb & U & K). destruct pre as [|y pre].
      * injection Q as <- <-. cbn [List.length] in K. rewrite Nat.add_0_r in K. congruence.
      * injection Q as <- ->. exfalso. apply (Np x); [left; reflexivity | exact B |]. apply (line_unsupported_iff x n). eauto.
  - apply Skip; [|exact IH]. intros _ U. apply (line_unsupported_iff x n) in U. destruct U as (m & U). congruence.
Qed.
Lemma warning_iff : forall line n w, (line_unsupported line /\ parse_sdp_line line n = Err w -> warning_given w (line, n)) /\
  (ascii_text line -> line_unsupported line -> warning_given w (line, n) -> parse_sdp_line line n = Err w).
Proof.
  intros line n w. split.
  - intros [U P]. apply (line_unsupported_iff line n) in U. destruct U as (e & U). rewrite P in U. injection U as ->.
    destruct (unsupported_message _ _ _ _ _ P) as (m & ->). exists m. split; [reflexivity|]. intro A. apply (line_says line n m A), P.
  - intros A U (m & -> & H). apply (line_says line n m A), H, A.
Qed.
Lemma reads_given : forall ls n ts ws, Reads n ls ts ws -> exists us, lines_read n ls ts us /\ Forall2 warning_given ws us.
Proof.
  intros ls n ts ws H.
  induction H as [n|n line rest ts ws B H IH|n line rest ts ws l B P H IH|n line rest ts ws e B P H IH].
  - exists []. split; constructor.
  - destruct IH as (us & R & W). exists us. split; [apply read_blank; assumption | exact W].
  - destruct IH as (us & R & W). exists us. apply line_fwd in P. destruct P as (_ & _ & P). split; [apply read_line; assumption | exact W].
  - destruct IH as (us & R & W). exists ((line, n) :: us). assert (U : line_unsupported line) by (apply (line_unsupported_iff _ n); eauto).
    split; [apply read_unsupported; assumption|]. constructor; [|exact W]. apply warning_iff. auto.
Qed.
Lemma given_reads : forall ls n ts us, lines_read n ls ts us -> forall ws, Forall2 warning_given ws us ->
  Forall (fun x => short (List.length x)) ls -> Forall ascii_text ls -> Reads n ls ts ws.
Proof.
  intros ls n ts us H.
  induction H as [n|n line rest ts us B H IH|n line rest ty ts us B M H IH|n line rest ts us B U H IH]; intros ws W F A.
  - inversion W; subst. constructor.
  - inversion F; inversion A; subst. apply Reads_blank; [assumption | apply IH; assumption].
  - inversion F as [|? ? F1 F2]; inversion A as [|? ? A1 A2]; subst.
    apply (Reads_line n line rest ts ws {| l_number := n; l_type := ty; l_text := line |} B); [|apply IH; assumption].
    apply (kind_iff line n (Meaning ty) F1), M.
  - inversion F as [|? ? F1 F2]; inversion A as [|? ? A1 A2]; inversion W as [|w ? ws' ? W1 W2]; subst.
    assert (P := proj2 (warning_iff line n w) A1 U W1). destruct W1 as (m & -> & _). cbn [fst snd] in *.
    apply Reads_warning; [exact B | exact P | apply IH; assumption].
Qed.

(** ** Texts *)
Lemma text_short : forall d, doc_ok d -> short (List.length (doc_text d)) -> Forall (fun x => short (List.length x)) (doc_lines d).
Proof. intros d D Sh. exact (doc_short d D Sh). Qed.
Lemma sound : ext_total E -> forall d b r, doc_ok d -> short (List.length (doc_text d)) ->
  parse_sdp (doc_text d) b = r -> outcome d b r.
Proof.
  intros T d b r D Sh P.
  destruct (doc_text d) as [|c0 t0] eqn:Tx.
  { subst r. unfold parse_sdp. cbn [is_empty]. pose proof (empty_text d b Tx) as O. rewrite Tx in O. exact O. }
  rewrite <- Tx in *. destruct (N.lt_ge_cases (byte_len (doc_text d)) 51) as [B|B].
  { assert (Ne : doc_text d <> []) by congruence. pose proof (short_text d b Ne B) as O. subst r. unfold parse_sdp.
    rewrite Tx at 1. cbn [is_empty]. replace (byte_len (doc_text d) <? 51) with true by lia. exact O. }
  destruct r as [s|p|].
  - apply document in P. rewrite (lines_doc d D) in P. destruct P as (_ & ts & ws & R & <- & Wb & L4 & A & St).
    destruct (reads_given _ _ _ _ R) as (us & R' & W). apply (accepted_text d b ts us s B R'); try assumption.
    intro Q. specialize (Wb Q). rewrite Wb in W. inversion W. reflexivity.
  - destruct p as [e line k|e line k|m k].
    + apply (text_why T d b e line k D Sh B) in P. destruct P as [(pre & post & Q & -> & Nb & R & G) U].
      apply (refused_text d b pre line post e B); assumption.
    + destruct (scan_total T (doc_text d) Sh B) as (L & H & W & S0). rewrite (parse_scan _ _ _ _ _ B S0) in P.
      rewrite (lines_doc d D) in S0.
      assert (X : b = true /\ hd_error W = Some (PUnsupported e line k)).
      { assert (Y : match last_error H with Some p => Err p | None => s <- parse_sdp_vector L ;; Ok (session_with_warnings W s) end <>
          Err (PUnsupported e line k)).
        { destruct (last_error H) as [p|] eqn:LE.
          - intro Q. apply last_in in LE. pose proof (scan_plines _ _ _ _ _ S0) as G. rewrite Forall_forall in G.
            destruct (G p LE) as (e1 & l1 & k1 & ->). discriminate.
          - intro K. destruct (parse_sdp_vector L) as [s|p|] eqn:V; cbn [bind] in K; try discriminate.
            apply vector_err in V. destruct V as (m & i & ->). discriminate. }
        unfold finish in P. destruct b; [|destruct W; contradiction]. destruct W as [|w W]; [contradiction|].
        split; [reflexivity|]. cbn [hd_error]. congruence. }
      destruct X as [-> X]. apply (scan_first _ _ _ _ _ S0) in X. destruct X as (pre & x & post & Q & Np & Nb & U & K).
      cbn [Nat.add] in K. eapply unsupported_text; try eassumption; [reflexivity|]. apply warning_iff. auto.
    + apply (sequence_iff d b m k D Sh) in P. destruct P as (_ & l & us & K & Ub & Br). exact (disordered_text d b l us m k B K Ub Br).
  - destruct (parse_sdp_np T (doc_text d) b Sh P).
Qed.
Lemma complete : ext_total E -> forall d b r, doc_ok d -> short (List.length (doc_text d)) -> Forall ascii_text (doc_lines d) ->
  outcome d b r -> parse_sdp (doc_text d) b = r.
Proof.
  intros T d b r D Sh A O. destruct O as [Tx|Ne B|pre line post w B Sb Q Np Nb U W|pre line post e B Ub Q Nb R G|l us m n B K Ub Br|ts us s B R Ub L4 As St W].
  - rewrite Tx. reflexivity.
  - unfold parse_sdp. replace (byte_len (doc_text d) <? 51) with true by lia. destruct (doc_text d); [contradiction | reflexivity].
  - destruct (scan_total T (doc_text d) Sh B) as (L & H & W0 & S0). rewrite (parse_scan _ _ _ _ _ B S0).
    rewrite (lines_doc d D) in S0. assert (X : hd_error W0 = Some w).
    { apply (scan_first _ _ _ _ _ S0). exists pre, line, post. split; [exact Q|]. split; [exact Np|]. split; [exact Nb|]. split; [exact U|].
      assert (Al : ascii_text line) by (rewrite Q in A; apply Forall_app in A; destruct A as [_ A]; inversion A; assumption).
      apply (warning_iff line _ w); assumption. }
    unfold finish. rewrite Sb. destruct W0 as [|w0 W0]; [discriminate|]. cbn [hd_error] in X. congruence.
  - apply (text_why T d b e line _ D Sh B). split; [exists pre, post; auto | exact Ub].
  - apply (sequence_iff d b m n D Sh). split; [exact B|]. exists l, us. auto.
  - apply document. rewrite (lines_doc d D). split; [exact B|]. exists ts, (s_warnings s).
    split; [exact (given_reads _ _ _ _ R _ W (text_short d D Sh) A)|]. split; [reflexivity|].
    split; [|auto]. intro Q. specialize (Ub Q). subst us. inversion W. reflexivity.
Qed.
End WithExt.

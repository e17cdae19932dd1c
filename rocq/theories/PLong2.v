(** * Lemmas for C77: errors of texts *)
From Coq Require Import List Arith NArith ZArith Bool Ascii String Lia ZifyBool ZifyNat ZifyN.
From Verif Require Import Str Num Net Types Ext Show Address AttrParse Media Session SpecVal SpecDoc SpecSize SpecGrow SpecLong.
From Verif Require Import SpecItems StrLemmas NumLemmas PPanic PExt0 PVal8 PVal11 PDoc2 PSize PGrow PLong.
Import ListNotations.
Open Scope nat_scope.
Open Scope list_scope.
Section WithExt.
Context {E : Ext} (B : nat) (HB : complaints_within B).
Lemma line_text : forall line n e, parse_sdp_line line n = Err e ->
  text (show_perr e) <= 7 * text line + 230 + B + text (show_N (N.of_nat n)).
Proof.
  intros line n e H.
  assert (K : forall s m, host_parse s = Err m -> List.length (show_ierr (EDomain m)) <= 200 + B).
  { intros s m Q. apply HB in Q. unfold text in Q. cbn [show_ierr]. rewrite app_length. change (List.length (lit "Domain name parsing error: ")) with 27. lia. }
  destruct (line_small B K (6 * text line + 200 + B) ltac:(lia) line n e ltac:(unfold text; lia) H) as (x & Q & L).
  unfold text in *. destruct Q as [->| ->]; cbn [show_perr]; rewrite !app_length;
    change (List.length (lit " in line(")) with 9; change (List.length (lit "): ")) with 3;
    change (List.length (lit "Line error: ")) with 12; change (List.length (lit "Unsupported: ")) with 13; lia.
Qed.
Lemma number_text : forall n s, fits_memory s -> n <= S (text s) -> text (show_N (N.of_nat n)) <= 20.
Proof. intros n s F H. unfold fits_memory in F. apply number_len. lia. Qed.

(** ** Warnings *)
Lemma reads_warnings : forall n ls ts ws, Reads n ls ts ws -> (forall k, k < n + List.length ls -> text (show_N (N.of_nat k)) <= 20) ->
  sum (fun w => text (show_perr w)) ws <= (258 + B) * PSize.total ls.
Proof.
  intros n ls ts ws H. induction H as [n|n line rest ts ws Bl R IH|n line rest ts ws l Bl P R IH|n line rest ts ws e Bl P R IH]; intro D.
  - cbn. lia.
  - rewrite PSize.total_cons. assert (X := IH ltac:(intros k K; apply D; cbn [List.length]; lia)). nia.
  - rewrite PSize.total_cons. assert (X := IH ltac:(intros k K; apply D; cbn [List.length]; lia)). nia.
  - rewrite PSize.total_cons, sum_cons. assert (X := IH ltac:(intros k K; apply D; cbn [List.length]; lia)).
    assert (Y := line_text _ _ _ P). assert (Z := D n ltac:(cbn [List.length]; lia)).
    assert (1 <= text line) by (destruct line; [destruct Bl; constructor|clear; unfold text; cbn [List.length]; lia]). rewrite Nat.mul_add_distr_l.
    cbv beta. assert (S (text (show_perr (PUnsupported e line n))) <= (258 + B) * text line) by nia. lia.
Qed.
Lemma lines_number : forall s, List.length (lines s) <= S (text s).
Proof.
  intro s. unfold lines. assert (H := PSize.split_total c_lf s).
  assert (G : forall l, List.length (lines_of l) <= List.length l).
  { induction l as [|x l IH]; [apply le_n|]. cbn [lines_of]. destruct l as [|y l]; [destruct (is_empty x); cbn; lia | cbn [List.length] in *; lia]. }
  specialize (G (split c_lf s)). lia.
Qed.
Lemma warnings_text : forall sdp b s, fits_memory sdp -> parse_sdp sdp b = Ok s ->
  sum (fun w => text (show_perr w)) (s_warnings s) <= (258 + B) * text sdp.
Proof.
  intros sdp b s F H. apply document in H. destruct H as (_ & ts & ws & R & -> & _).
  apply reads_warnings in R.
  - assert (L := PSize.lines_total sdp). nia.
  - intros k K. apply (number_text _ sdp F). pose proof (lines_number sdp). lia.
Qed.

(** ** Refused texts *)
Lemma line_of_number : forall line n l, parse_sdp_line line n = Ok l -> l_number l = n.
Proof.
  intros line n l H. unfold parse_sdp_line in H. cbv zeta in H. repeat match type of H with (match ?x with _ => _ end) = Ok _ => destruct x; try discriminate H end.
  injection H as <-. reflexivity.
Qed.
Definition line_from (T : nat) (l : sdp_line) : Prop := exists x, parse_sdp_line x (l_number l) = Ok l /\ text x <= T /\ l_number l <= S T.
Definition error_from (T : nat) (e : perr) : Prop := exists x n, parse_sdp_line x n = Err e /\ text x <= T /\ n <= S T.
Definition scan_from (T : nat) (sc : scan) : Prop := Forall (line_from T) (sc_lines sc) /\ Forall (error_from T) (sc_errors sc) /\ Forall (error_from T) (sc_warnings sc).
Lemma scan_origin : forall T ls n acc sc, scan_from T acc -> Forall (fun x => text x <= T) ls -> n + List.length ls <= S T ->
  scan_lines n acc ls = Ok sc -> scan_from T sc.
Proof.
  intros T ls. induction ls as [|x ls IH]; intros n acc sc A F K H; cbn [scan_lines] in H; [injection H as <-; exact A|].
  inversion F as [|? ? Fx Fr]; subst. cbn [List.length] in K. destruct (is_empty (trim x)); [refine (IH _ _ _ A Fr _ H); lia|].
  destruct A as (A1 & A2 & A3). destruct (parse_sdp_line x n) as [l|e|] eqn:P; [| |discriminate H].
  - refine (IH _ _ _ _ Fr _ H); [|lia]. split; [|split]; cbn [sc_lines sc_errors sc_warnings]; auto. apply Forall_app. split; [exact A1|].
    constructor; [|constructor]. exists x. rewrite (line_of_number _ _ _ P). repeat split; auto; lia.
  - assert (Q : error_from T e) by (exists x, n; repeat split; auto; lia).
    destruct e; (refine (IH _ _ _ _ Fr _ H); [|lia]); split; try split; cbn [sc_lines sc_errors sc_warnings]; auto; apply Forall_app; split; auto.
Qed.

Lemma constant : forall (m : string) n, List.length (of_string m) <= 200 -> text (show_perr (PSequence (fmt m []) n)) <= 240 + text (show_N (N.of_nat n)).
Proof. intros m n H. unfold text. cbn [show_perr]. rewrite !app_length. pose proof (fmt_len m []) as K. cbn in K. change (List.length (lit "Sequence error in line(")) with 23. change (List.length (lit "): ")) with 3. lia. Qed.
(** An error of the order of lines: a fixed text, or that of an attribute. *)
Definition says (ls : list sdp_line) (e : perr) : Prop :=
  exists m n, e = PSequence m n /\ (n <= 2 \/ exists l, In l ls /\ n = l_number l) /\
    (List.length m <= 200 \/ exists l a, In l ls /\ l_type l = TyAttribute a /\ List.length m <= 100 + List.length (show_attr a)).
Lemma says_more : forall x ls e, says ls e -> says (x :: ls) e.
Proof.
  intros x ls e (m & n & -> & N & L). exists m, n. split; [reflexivity|]. split.
  - destruct N as [N|(l & I & N)]; [left; exact N | right; exists l; split; [right; exact I | exact N]].
  - destruct L as [L|(l & a & I & L)]; [left; exact L | right; exists l, a; split; [right; exact I | exact L]].
Qed.
Lemma says_in : forall ls rs e, says ls e -> (forall l, In l ls -> In l rs) -> says rs e.
Proof.
  intros ls rs e (m & n & -> & N & L) S. exists m, n. split; [reflexivity|]. split.
  - destruct N as [N|(l & I & N)]; [left; exact N | right; exists l; split; [exact (S _ I) | exact N]].
  - destruct L as [L|(l & a & I & L)]; [left; exact L | right; exists l, a; split; [exact (S _ I) | exact L]].
Qed.
Lemma says_fixed : forall ls (m : string) n, (n <= 2 \/ exists l, In l ls /\ n = l_number l) -> List.length (fmt m []) <= 200 -> says ls (PSequence (fmt m []) n).
Proof. intros ls m n N H. exists (fmt m []), n. split; [reflexivity|]. split; [exact N | left; exact H]. Qed.
Ltac here l := right; exists l; split; [left; reflexivity | reflexivity].
Ltac fixed := apply says_fixed; [first [left; lia | match goal with l : sdp_line |- _ => here l end] | vm_compute; lia].
Lemma level_text : forall (t : string) a, (List.length (of_string t) <= 80) -> List.length (show_ierr (genf t [show_attr a])) <= 100 + List.length (show_attr a).
Proof. intros t a H. cbn [show_ierr]. rewrite app_length. pose proof (fmt_len t [show_attr a]) as K. change (list_sum (map (@List.length N) [show_attr a])) with (List.length (show_attr a) + 0) in K. change (List.length (lit "Parsing error: ")) with 15. lia. Qed.
Lemma session_says : forall ls s e, snd (parse_session_vector s ls) = Err e -> says ls e.
Proof.
  induction ls as [|l ls IH]; intros s e H; cbn [parse_session_vector] in H; [discriminate H|].
  destruct (l_type l) eqn:T; try (apply says_more, (IH _ _ H)); try (cbn [snd] in H; injection H as <-; fixed).
  unfold session_add_attribute in H. destruct (negb _); [|apply says_more, (IH _ _ H)]. cbn [snd] in H. injection H as <-.
  eexists; eexists. split; [reflexivity|]. split; [here l|]. right. exists l, a. split; [left; reflexivity|]. split; [exact T|].
  apply level_text. vm_compute. lia.
Qed.
Lemma media_says : forall ls d m e, media_loop d m ls = Err e -> says ls e.
Proof.
  induction ls as [|l ls IH]; intros d m e H; cbn [media_loop] in H; [discriminate H|].
  destruct (l_type l) eqn:T; try (apply says_more, (IH _ _ _ H)); try (injection H as <-; fixed).
  - unfold media_line_attribute in H. revert H. unfold add_attribute.
    assert (G : Err (PSequence (show_ierr (genf "{} not allowed at media level" [show_attr a])) (l_number l)) = Err (A:=list media) e -> says (l :: ls) e).
    { intro H. injection H as <-. eexists; eexists. split; [reflexivity|]. split; [here l|]. right. exists l, a. split; [left; reflexivity|]. split; [exact T|].
      apply level_text. vm_compute. lia. }
    destruct a; cbn [negb allowed_at_media_level]; try exact G; intro H; apply says_more, (IH _ _ _ H).
  - destruct (m_connection m); [injection H as <-; fixed | apply says_more, (IH _ _ _ H)].
Qed.
Lemma sanity_says : forall ls s e, sanity_check s = Err e -> says ls e.
Proof.
  intros ls s e H. unfold sanity_check, seq_error in H. destruct (negb _); [injection H as <-; fixed|]. cbv zeta in H.
  destruct (_ && _); [injection H as <-; fixed|]. destruct (_ && _); [injection H as <-; fixed|].
  induction (s_media s) as [|m l IH]; cbn [sanity_check_all] in H; [discriminate H|].
  destruct (sanity_check_media m) as [u|x|] eqn:Q; cbn [bind] in H; [exact (IH H) | | discriminate H]. injection H as <-. clear IH.
  unfold sanity_check_media, seq_error in Q.
  repeat match type of Q with
  | (let _ := _ in _) = _ => cbv zeta in Q
  | (match ?x with _ => _ end) = Err _ => destruct x
  | bind ?x _ = Err _ => destruct x eqn:?; cbn [bind] in Q
  | Ok _ = Err _ => discriminate Q
  | Panic = Err _ => discriminate Q
  | Err _ = Err _ => injection Q as <-
  end; try fixed.
Qed.

Lemma keep_err : forall (s : session) (r : res perr unit) e, keep (s, r) = Err e -> r = Err e.
Proof. intros s r e H. destruct r; cbn in H; [discriminate H | injection H as <-; reflexivity | discriminate H]. Qed.
Lemma at_media_in : forall ls a b, split_at_media ls = (a, b) -> forall l, In l a \/ In l b -> In l ls.
Proof.
  induction ls as [|x ls IH]; intros a b H l I; cbn in H; [injection H as <- <-; destruct I as [[]|[]]|].
  destruct (is_media_line x); [injection H as <- <-; destruct I as [[]|I]; exact I|].
  destruct (split_at_media ls) as [a' b'] eqn:Q. injection H as <- <-. destruct I as [[->|I]|I]; [left; reflexivity | right; apply (IH _ _ eq_refl); left; exact I | right; apply (IH _ _ eq_refl); right; exact I].
Qed.
Lemma vector_says : forall ls e, parse_sdp_vector ls = Err e -> says ls e.
Proof.
  intros ls e H. unfold parse_sdp_vector in H. destruct (Nat.ltb _ 4); [injection H as <-; fixed|].
  assert (I : forall i y, idx (E:=perr) ls i <> Err y) by (intros i y Q; unfold idx in Q; destruct (nth_error ls i); discriminate Q).
  destruct (idx ls 0) as [l0|y|] eqn:I0; cbn [bind] in H; [|destruct (I _ _ I0)|discriminate H].
  destruct (l_type l0); try (injection H as <-; fixed).
  destruct (idx ls 1) as [l1|y|] eqn:I1; cbn [bind] in H; [|destruct (I _ _ I1)|discriminate H].
  destruct (l_type l1); try (injection H as <-; fixed).
  destruct (idx ls 2) as [l2|y|] eqn:I2; cbn [bind] in H; [|destruct (I _ _ I2)|discriminate H].
  destruct (l_type l2); try (injection H as <-; fixed).
  cbv zeta in H. destruct (split_at_media (skipn 3 ls)) as [hd tl] eqn:S.
  assert (In3 : forall l, In l hd \/ In l tl -> In l ls).
  { intros l J. apply (at_media_in _ _ _ S) in J. rewrite <- (firstn_skipn 3 ls). apply in_or_app. right. exact J. }
  assert (Z : forall s, bind (sanity_check s) (fun _ => Ok s) = Err e -> says ls e).
  { intros s' Q. destruct (sanity_check s') as [u|x|] eqn:Y; cbn [bind] in Q; try discriminate Q. injection Q as <-. exact (sanity_says ls _ _ Y). }
  assert (Hd : forall x s', keep (parse_session_vector s' hd) = Err x -> says ls x).
  { intros x s' Q. destruct (parse_session_vector s' hd) as [s2 r] eqn:Y. apply keep_err in Q. apply (says_in hd); [|intros l J; apply In3; left; exact J].
    apply (session_says hd s'). rewrite Y. exact Q. }
  match type of H with bind ?w _ = _ => destruct w as [s'|x|] eqn:Q; cbn [bind] in H; [exact (Z _ H) | injection H as -> | discriminate H] end.
  destruct tl as [|m tl]; [exact (Hd _ _ Q)|].
  match type of Q with bind ?w _ = _ => destruct w as [s'|y|] eqn:P; cbn [bind] in Q; [ | injection Q as ->; exact (Hd _ _ P) | discriminate Q] end.
  destruct (parse_media_vector (m :: tl)) as [ms|y|] eqn:P'; cbn [bind] in Q; [discriminate Q | injection Q as -> | discriminate Q].
  apply (says_in (m :: tl)); [|intros l J; apply In3; right; exact J]. cbn [parse_media_vector] in P'.
  destruct (l_type m); try (injection P' as <-; fixed). apply says_more, (media_says _ _ _ _ P').
Qed.
Lemma attr_text : forall k m, ext_ok E -> 1 <= k -> names_grow_by k -> floats_within m -> forall x n l a, parse_sdp_line x n = Ok l -> l_type l = TyAttribute a ->
  List.length (show_attr a) <= 500 + m + (120 + 6 * m) * (S k * text x).
Proof.
  intros k m EO K1 KN FW x n l a P T. assert (R := line_range EO _ _ _ P). rewrite T in R. cbn [item_range] in R.
  assert (A := len_attr m FW a R). apply line_fwd in P. destruct P as (_ & _ & L). rewrite T in L. apply (line_bound k K1 KN) in L. cbn [item_size] in L. nia.
Qed.
Lemma lines_short : forall s, Forall (fun x => text x <= text s) (lines s).
Proof. intro s. apply Forall_forall. intros x. apply lines_length. Qed.
Lemma refused_text : forall sdp b e, fits_memory sdp -> parse_sdp sdp b = Err e ->
  match e with
  | PSequence _ _ => forall k m, ext_ok E -> 1 <= k -> names_grow_by k -> floats_within m -> text (show_perr e) <= 646 + m + (120 + 6 * m) * (S k * text sdp)
  | _ => text (show_perr e) <= 7 * text sdp + 250 + B
  end.
Proof.
  intros sdp b e F H. unfold parse_sdp in H.
  assert (D : forall n, n <= S (text sdp) -> text (show_N (N.of_nat n)) <= 20) by (intros n; apply number_text; exact F).
  assert (First : forall m : string, List.length (show_ierr (gen m)) <= 200 -> Err (PLine (gen m) sdp 0) = Err (A:=session) e -> match e with
  | PSequence _ _ => forall k m, ext_ok E -> 1 <= k -> names_grow_by k -> floats_within m -> text (show_perr e) <= 646 + m + (120 + 6 * m) * (S k * text sdp)
  | _ => text (show_perr e) <= 7 * text sdp + 250 + B
  end).
  { intros m L Q. injection Q as <-. unfold text. cbn [show_perr]. rewrite !app_length. change (List.length (lit " in line(")) with 9; change (List.length (lit "): ")) with 3;
    change (List.length (lit "Line error: ")) with 12. change (List.length (show_N (N.of_nat 0))) with 1. lia. }
  destruct (is_empty sdp); [apply (First "empty SDP"%string); [vm_compute; lia | exact H]|].
  destruct (_ <? 51)%N; [apply (First "string too short to be valid SDP"%string); [vm_compute; lia | exact H]|]. clear First.
  destruct (scan_lines 0 _ (lines sdp)) as [sc|x|] eqn:S; cbn [bind] in H; [| |discriminate H].
  2:{ exfalso. revert S. generalize 0 at 1, {| sc_lines := []; sc_errors := []; sc_warnings := [] |}. generalize (lines sdp). clear. intro ls.
      induction ls as [|y ls IH]; intros n acc Q; cbn [scan_lines] in Q; [discriminate Q|]. destruct (is_empty (trim y)); [exact (IH _ _ Q)|].
      destruct (parse_sdp_line y n) as [l|e|]; [exact (IH _ _ Q) | destruct e; exact (IH _ _ Q) | discriminate Q]. }
  apply (scan_origin (text sdp)) in S; [|repeat split; constructor | apply lines_short | exact (lines_number sdp)]. destruct S as (S1 & S2 & S3).
  assert (X : error_from (text sdp) e -> match e with
  | PSequence _ _ => forall k m, ext_ok E -> 1 <= k -> names_grow_by k -> floats_within m -> text (show_perr e) <= 646 + m + (120 + 6 * m) * (S k * text sdp)
  | _ => text (show_perr e) <= 7 * text sdp + 250 + B
  end).
  { intros (y & n & P & L & N). assert (Y := line_text _ _ _ P). assert (Z := D n N). destruct e; try lia.
    exfalso. unfold parse_sdp_line in P. cbv zeta in P. repeat match type of P with (match ?x with _ => _ end) = Err _ => destruct x; try discriminate P end. unfold line_error in P. destruct e; discriminate P. }
  assert (V : bind (parse_sdp_vector (sc_lines sc)) (fun s => Ok (session_with_warnings (sc_warnings sc) s)) = Err e -> match e with
  | PSequence _ _ => forall k m, ext_ok E -> 1 <= k -> names_grow_by k -> floats_within m -> text (show_perr e) <= 646 + m + (120 + 6 * m) * (S k * text sdp)
  | _ => text (show_perr e) <= 7 * text sdp + 250 + B
  end).
  { intro Q. destruct (parse_sdp_vector (sc_lines sc)) as [s|x|] eqn:Y; cbn [bind] in Q; try discriminate Q. injection Q as ->. apply vector_says in Y.
    destruct Y as (m & n & -> & N & L). intros k w EO K1 KN FW. unfold text at 1. cbn [show_perr]. rewrite !app_length.
    change (List.length (lit "Sequence error in line(")) with 23. change (List.length (lit "): ")) with 3.
    assert (Z : text (show_N (N.of_nat n)) <= 20).
    { destruct N as [N|(l & I & ->)]; [|rewrite Forall_forall in S1; destruct (S1 _ I) as (y & _ & _ & W); exact (D _ W)].
      destruct n as [|[|[|n]]]; [cbn; lia .. | lia]. }
    unfold text in Z. destruct L as [L|(l & a & I & T & L)]; [lia|]. rewrite Forall_forall in S1. destruct (S1 _ I) as (y & P & W & _).
    assert (U := attr_text k w EO K1 KN FW _ _ _ _ P T). assert (S k * text y <= S k * text sdp) by (apply Nat.mul_le_mono_l; exact W).
    assert ((120 + 6 * w) * (S k * text y) <= (120 + 6 * w) * (S k * text sdp)) by (apply Nat.mul_le_mono_l; assumption). unfold text in *. lia. }
  assert (W : match last_error (sc_errors sc) with Some x => Err x | None => bind (parse_sdp_vector (sc_lines sc)) (fun s => Ok (session_with_warnings (sc_warnings sc) s)) end = Err e ->  match e with
  | PSequence _ _ => forall k m, ext_ok E -> 1 <= k -> names_grow_by k -> floats_within m -> text (show_perr e) <= 646 + m + (120 + 6 * m) * (S k * text sdp)
  | _ => text (show_perr e) <= 7 * text sdp + 250 + B
  end).
  { destruct (last_error (sc_errors sc)) as [x|] eqn:Y; [|exact V]. intro Q. injection Q as ->. apply X. rewrite Forall_forall in S2. apply S2.
    unfold last_error in Y. apply in_rev. destruct (rev (sc_errors sc)); [discriminate Y|]. injection Y as ->. left. reflexivity. }
  destruct b; [|exact (W H)]. destruct (sc_warnings sc) as [|x l] eqn:Y; [exact (W H)|]. injection H as ->. apply X. inversion S3; assumption.
Qed.
End WithExt.

(** ** A line whose error is long *)
Section Deletes.
Context {E : Ext}.
Definition deletes (n : nat) : str := repeat 127%N (S n).
Definition long_line (n : nat) : str := lit "a=ssrc-group:" ++ deletes n.
Lemma deletes_no : forall c n, (c =? 127)%N = false -> contains c (deletes n) = false.
Proof. intros c n H. unfold deletes. induction n as [|n IH]; [cbn; rewrite H; reflexivity|]. cbn [repeat] in *. rewrite contains_cons, H. exact IH. Qed.
Lemma deletes_ends : forall n, ends_ok (deletes n).
Proof. intro n. unfold deletes. induction n as [|n IH]; [exists [], 127%N; auto|]. cbn [repeat] in *. apply ends_ok_cons. exact IH. Qed.
Lemma deletes_word : forall n, split_whitespace (deletes n) = [deletes n].
Proof. intro n. apply sws_one. split; [discriminate|]. unfold no_ws. apply forallb_forall. intros x I. apply repeat_spec in I. subst. reflexivity. Qed.
Lemma deletes_upper : forall n, to_upper (deletes n) = deletes n.
Proof. intro n. unfold to_upper, deletes. generalize (S n). intro k. induction k as [|k IH]; [reflexivity|]. cbn [repeat flat_map]. rewrite IH. reflexivity. Qed.
Lemma long_error : forall n k, parse_sdp_line (long_line n) k =
  Err (PUnsupported (unsupf "Unknown ssrc semantic '{}' found" [debug_str (deletes n)]) (long_line n) k).
Proof.
  intros n k. unfold parse_sdp_line. set (v := lit "ssrc-group" ++ c_colon :: deletes n).
  assert (C : contains c_eq (long_line n) = true) by (apply contains_In; right; left; reflexivity).
  assert (S2 : splitn 2 c_eq (long_line n) = [[97%N]; v]).
  { change (long_line n) with ([97%N] ++ c_eq :: v). apply splitn2_app. reflexivity. }
  rewrite C, S2. cbn [negb].
  assert (T : trim v = v).
  { apply trim_id. split; [exists 115%N, (lit "src-group" ++ c_colon :: deletes n); auto|]. apply ends_ok_app. apply ends_ok_cons, deletes_ends. }
  cbv zeta. change (trim [97%N]) with [97%N]. change (1 <? byte_len [97])%N with false. cbn [is_empty]. change (to_lower [97%N]) with [97%N]. rewrite T.
  change (is_empty v) with false. cbn [andb]. change (parse_value [97%N] v v) with (parse_attribute v).
  assert (P : parse_attribute v = Err (unsupf "Unknown ssrc semantic '{}' found" [debug_str (deletes n)])); [|rewrite P; reflexivity].
  unfold parse_attribute. rewrite T. unfold attr_from_str, v. rewrite splitn2_app by reflexivity.
  cbv zeta. cbn [idx nth_error bind]. change (to_lower (lit "ssrc-group")) with (lit "ssrc-group").
  change (Nat.ltb 1 (List.length [lit "ssrc-group"; deletes n]) && mem_str (lit "ssrc-group") flag_names) with false.
  cbv iota. change (assoc_str (lit "ssrc-group") attr_parsers) with (Some parse_ssrc_group). cbv iota.
  rewrite trim_id by (split; [exists 127%N, (repeat 127%N n); auto|apply deletes_ends]).
  unfold parse_ssrc_group. rewrite deletes_word, deletes_upper.
  match goal with |- context [assoc_str ?x ?l] => assert (Q : assoc_str x l = None) by reflexivity; rewrite Q end. reflexivity.
Qed.
Lemma deletes_debug : forall n, List.length (debug_str (deletes n)) = 6 * S n + 2.
Proof.
  intro n. unfold debug_str, deletes. cbn [List.length]. rewrite app_length. cbn [List.length].
  generalize (S n). intro k. assert (H : List.length (flat_map debug_char (repeat 127%N k)) = 6 * k); [|lia].
  induction k as [|k IH]; [reflexivity|]. cbn [repeat flat_map]. rewrite app_length, IH. change (List.length (debug_char 127)) with 6. lia.
Qed.
Lemma long_length : forall n k, match parse_sdp_line (long_line n) k with Err e => 7 * S n <= text (show_perr e) | _ => False end.
Proof.
  intros n k. rewrite long_error. unfold text. cbn [show_perr show_ierr]. rewrite !app_length.
  assert (K : 6 * S n <= List.length (fmt "Unknown ssrc semantic '{}' found" [debug_str (deletes n)])).
  { change (fmt "Unknown ssrc semantic '{}' found" [debug_str (deletes n)]) with (lit "Unknown ssrc semantic '" ++ debug_str (deletes n) ++ lit "' found").
    rewrite !app_length, deletes_debug. lia. }
  unfold long_line. rewrite app_length. assert (L : List.length (deletes n) = S n) by apply repeat_length. lia.
Qed.
End Deletes.

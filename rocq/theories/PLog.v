(** * The log (proofs for C71) *)
From Coq Require Import List NArith ZArith Bool Ascii String Lia.
From Coq Require Import ZifyBool ZifyNat ZifyN.
From Verif Require Import Str Num Net Types Ext Show Address AttrParse Media Session.
From Verif Require Import StrLemmas NumLemmas NetLemmas.
From Verif Require Import SpecApi SpecDoc SpecVal SpecPrint PPanic PDoc PDoc2 PVal PVal8 PVal9.
From Verif Require Import SpecItems PPrint3 PPrint9 PSettle3 PCause6.
From Verif Require Import Log SpecLog.
Import ListNotations.
Open Scope N_scope.
Open Scope list_scope.

Section WithExt.
Context {E : Ext}.

(** ** Lines *)
Lemma traced_value : forall c (k : str -> res ierr sdp_type) m v,
  (forall ty, k (trim v) = Ok ty -> c = line_letter ty) ->
  (forall ty, c = line_letter ty -> [(Trace, m ty)] = trace_of ty) ->
  traced m (k (trim v)) = (match k (trim v) with Ok ty => trace_of ty | Err _ | Panic => [] end, k (trim v)).
Proof.
  intros c k m v H M. unfold traced. destruct (k (trim v)) as [ty| |]; try reflexivity.
  rewrite <- (M ty); [reflexivity|]. apply H. reflexivity.
Qed.
Lemma value_log : forall lt v, parse_value_log lt (trim v) v =
  (match parse_value lt (trim v) v with Ok ty => trace_of ty | Err _ | Panic => [] end, parse_value lt (trim v) v).
Proof.
  intros lt v. pose proof (fun c ty H => proj1 (value_fwd c v ty H)) as F. unfold parse_value_log, parse_value.
  Ltac said := unfold trace_of, fmt; cbn [noun written item_text]; do 2 f_equal; cbn; rewrite ?app_nil_r; reflexivity.
  Ltac sort F c := apply (traced_value c); [intros ty H; apply (F c ty); exact H | intros ty Q; destruct ty; try discriminate Q; said].
  destruct (str_eqb lt (lit "a")).
  { unfold silent. f_equal. destruct (parse_attribute (trim v)) as [ty| |] eqn:P; try reflexivity.
    specialize (F 97 ty P). destruct ty; try discriminate F. reflexivity. }
  destruct (str_eqb lt (lit "b")). { sort F 98. }
  destruct (str_eqb lt (lit "c")). { sort F 99. }
  destruct (str_eqb lt (lit "e")). { reflexivity. }
  destruct (str_eqb lt (lit "i")). { reflexivity. }
  destruct (str_eqb lt (lit "k")). { reflexivity. }
  destruct (str_eqb lt (lit "m")). { sort F 109. }
  destruct (str_eqb lt (lit "o")). { sort F 111. }
  destruct (str_eqb lt (lit "p")). { reflexivity. }
  destruct (str_eqb lt (lit "r")). { reflexivity. }
  destruct (str_eqb lt (lit "s")). { unfold parse_session_name_log. f_equal. said. }
  destruct (str_eqb lt (lit "t")). { sort F 116. }
  destruct (str_eqb lt (lit "u")). { reflexivity. }
  destruct (str_eqb lt (lit "v")). { sort F 118. }
  destruct (str_eqb lt (lit "z")); reflexivity.
Qed.
Definition line_trace (line : str) (n : nat) : list record :=
  match parse_sdp_line line n with Ok l => trace_of (l_type l) | Err _ | Panic => [] end.
Lemma line_log : forall line n, parse_sdp_line_log line n = (line_trace line n, parse_sdp_line line n).
Proof.
  intros line n. unfold line_trace, parse_sdp_line_log, parse_sdp_line.
  destruct (negb (contains c_eq line)); [reflexivity|]. destruct (splitn 2 c_eq line) as [|t rest]; [reflexivity|]. cbv zeta.
  destruct (1 <? byte_len (trim t)); [reflexivity|]. destruct (is_empty (trim t)); [reflexivity|].
  destruct rest as [|v rest]; [reflexivity|]. destruct (_ && _); [reflexivity|]. rewrite value_log.
  destruct (parse_value _ _ _); reflexivity.
Qed.

(** ** Texts *)
Fixpoint scan_trace (n : nat) (ls : list str) : list record :=
  match ls with
  | [] => []
  | line :: rest =>
      if is_empty (trim line) then scan_trace (S n) rest
      else line_trace line n ++ match parse_sdp_line line n with Panic => [] | _ => scan_trace (S n) rest end
  end.
Lemma scan_log : forall ls n acc, scan_lines_log n acc ls = (scan_trace n ls, scan_lines n acc ls).
Proof.
  induction ls as [|x ls IH]; intros n acc; [reflexivity|]. cbn [scan_lines_log scan_trace scan_lines].
  destruct (is_empty (trim x)); [apply IH|]. rewrite line_log. cbv beta iota.
  destruct (parse_sdp_line x n) as [l|[]|] eqn:P; try rewrite IH; reflexivity.
Qed.
Definition traces (sdp : str) : list record := if byte_len sdp <? 51 then [] else scan_trace 0 (lines sdp).
Lemma parse_log : forall sdp b, parse_sdp_log sdp b = (traces sdp ++ warned (parse_sdp sdp b), parse_sdp sdp b).
Proof.
  intros sdp b. unfold parse_sdp_log, parse_sdp, traces. destruct (is_empty sdp) eqn:Em.
  { destruct sdp; [reflexivity | discriminate]. }
  destruct (byte_len sdp <? 51); [reflexivity|]. rewrite scan_log.
  destruct (scan_lines _ _ _) as [sc|e|]; cbn [bind].
  - destruct b; [destruct (sc_warnings sc) as [|w ws] eqn:W|];
      [| cbn [warned]; rewrite app_nil_r; reflexivity |];
      (destruct (last_error (sc_errors sc)); [cbn [warned]; rewrite app_nil_r; reflexivity|];
       destruct (parse_sdp_vector (sc_lines sc)); cbn [bind warned]; try (rewrite app_nil_r; reflexivity);
       do 2 f_equal; apply map_ext; intro w; f_equal; unfold fmt; cbn [of_string fmt_chars N_of_ascii]; cbn; rewrite app_nil_r; reflexivity).
  - cbn [warned]. rewrite app_nil_r. reflexivity.
  - cbn [warned]. rewrite app_nil_r. reflexivity.
Qed.

(** ** Against the specification *)
Lemma scan_traced : forall ls n L H W, Scan n ls L H W -> Forall (fun x => short (List.length x)) ls -> lines_trace ls (scan_trace n ls).
Proof.
  assert (Other : forall x n e, short (List.length x) -> parse_sdp_line x n = Err e -> forall ty, ~ line_means x ty).
  { intros x n e Sx P ty M. rewrite (line_bwd x n ty) in P; [discriminate | | exact M].
    destruct ty as [[]| | | | | | |]; cbn [countable]; try exact I; exact Sx. }
  intros ls n L H W S0. induction S0 as [n|n x r L H W B S0 IH|n x r L H W l B P S0 IH|n x r L H W e B P S0 IH|n x r L H W e B P S0 IH];
    intro F; cbn [scan_trace]; [constructor | | | |];
    (assert (F1 := Forall_inv F); assert (F2 := Forall_inv_tail F); cbv beta in F1).
  - apply blank_trim in B. rewrite B. apply blank_trim in B. apply trace_blank; auto.
  - apply blank_trim_false in B. rewrite B. apply blank_trim_false in B. unfold line_trace. rewrite P.
    apply trace_line; auto. apply line_fwd in P. apply P.
  - apply blank_trim_false in B. rewrite B. apply blank_trim_false in B. unfold line_trace. rewrite P. cbn [app].
    apply trace_other; auto. exact (Other x n _ F1 P).
  - apply blank_trim_false in B. rewrite B. apply blank_trim_false in B. unfold line_trace. rewrite P. cbn [app].
    apply trace_other; auto. exact (Other x n _ F1 P).
Qed.
Lemma trace_fun : forall ls l, lines_trace ls l -> forall l', lines_trace ls l' ->
  Forall (fun x => short (List.length x)) ls -> l = l'.
Proof.
  assert (Ct : forall ty n, short n -> countable ty n).
  { intros ty n Sx. destruct ty as [[]| | | | | | |]; cbn [countable]; try exact I; exact Sx. }
  intros ls l H. induction H as [|x r l B H IH|x r ty l B M H IH|x r l B M H IH]; intros l' H' F; inversion H'; subst;
    try contradiction; try reflexivity; try (assert (F1 := Forall_inv F); assert (F2 := Forall_inv_tail F); cbv beta in F1).
  - apply IH; assumption.
  - f_equal; [|apply IH; assumption]. f_equal. apply (line_means_fun x); auto.
  - match goal with K : forall t, ~ line_means x t |- _ => destruct (K _ M) end.
  - match goal with K : line_means x _ |- _ => destruct (M _ K) end.
  - apply IH; assumption.
Qed.

Lemma log_sound : ext_total E -> forall d, doc_ok d -> short (List.length (doc_text d)) -> 51 <= byte_len (doc_text d) ->
  exists tr, lines_trace (doc_lines d) tr /\ traces (doc_text d) = tr.
Proof.
  intros T d D Sh B. destruct (scan_total T (doc_text d) Sh B) as (L & H & W & S0). rewrite (lines_doc d D) in S0.
  exists (scan_trace 0 (doc_lines d)). split; [exact (scan_traced _ _ _ _ _ S0 (doc_short d D Sh))|].
  unfold traces. replace (byte_len (doc_text d) <? 51) with false by lia. rewrite (lines_doc d D). reflexivity.
Qed.
Lemma attribute_silent : forall x r l, short (List.length x) -> attribute_line x -> lines_trace (x :: r) l -> lines_trace r l.
Proof.
  intros x r l Sx (B & a & M) H. inversion H; subst; try contradiction; [|match goal with K : forall t, ~ line_means x t |- _ => destruct (K _ M) end].
  assert (Ct : forall ty, countable ty (List.length x)).
  { intros t. destruct t as [[]| | | | | | |]; cbn [countable]; try exact I; exact Sx. }
  match goal with K : line_means x ?t |- lines_trace r (trace_of ?t ++ _) => assert (Q : t = TyAttribute a) by (apply (line_means_fun x); auto); rewrite Q end.
  assumption.
Qed.
Lemma but_trace : forall ls ls', Forall2 (fun x y => x = y \/ (attribute_line x /\ attribute_line y)) ls ls' ->
  Forall (fun x => short (List.length x)) ls -> forall l, lines_trace ls l -> lines_trace ls' l.
Proof.
  intros ls ls' H. induction H as [|x y r r' [->|[Hx Hy]] H IH]; intros F l T; [exact T| |].
  - assert (F2 := Forall_inv_tail F). inversion T; subst;
      [apply trace_blank | apply trace_line | apply trace_other]; auto.
  - assert (F1 := Forall_inv F). assert (F2 := Forall_inv_tail F). apply (attribute_silent x r l F1 Hx) in T.
    destruct Hy as (B & a & M). change l with (trace_of (TyAttribute a) ++ l). apply trace_line; auto.
Qed.

(** ** Reading the log *)
Lemma read_back : ext_ok E -> forall line ty w, short (List.length line) -> line_means line ty -> noun ty = Some w ->
  (forall m, ty <> TyMedia m) -> trace_of ty = [(Trace, of_string w ++ [58; 32] ++ item_text ty)] /\ line_means (printed_line ty) ty.
Proof.
  intros X line ty w Sx M Nn Nm. split.
  - unfold trace_of. rewrite Nn. destruct ty; try reflexivity. destruct (Nm m eq_refl).
  - apply (item_prints X).
    + apply (means_wf X line); [|exact M]. destruct ty as [[]| | | | | | |]; cbn [countable]; try exact I; exact Sx.
    + destruct ty; cbn [item_lossy]; try tauto. discriminate Nn.
Qed.
Lemma digits_no_comma : forall n, ~ In 44 (show_N n).
Proof. intros n I. assert (D := show_N_chars n). rewrite forallb_forall in D. apply D in I. discriminate. Qed.
Lemma media_back : ext_ok E -> forall line m, short (List.length line) -> line_means line (TyMedia m) ->
  exists a b c x, trace_of (TyMedia m) = [(Trace, of_string "media: " ++ a ++ [44; 32] ++ b ++ [44; 32] ++ c ++ [44; 32] ++ x)] /\
    ~ In 44 a /\ ~ In 44 b /\ ~ In 44 c /\
    line_means (109 :: 61 :: a ++ [32] ++ b ++ [32] ++ c ++ [32] ++ x) (TyMedia (without_count m)).
Proof.
  intros X line m Sx M. exists (show_media_value (ml_media m)), (show_N (ml_port m)), (show_protocol_value (ml_proto m)), (show_format_list (ml_formats m)).
  split; [reflexivity|]. split.
  { destruct (ml_media m); vm_compute; intuition discriminate. }
  split; [apply digits_no_comma|]. split; [destruct (ml_proto m); vm_compute; intuition discriminate|].
  assert (W : item_wf (TyMedia (without_count m))).
  { apply (means_wf X line) in M; [|exact I]. destruct M as [(R1 & R2 & R3) W]. split; [|exact W]. split; [exact R1|].
    split; [|exact R3]. cbn. unfold u32. cbn. lia. }
  pose proof (item_prints X _ W (fun K => K)) as P. unfold printed_line in P. cbn [line_letter item_text] in P.
  unfold show_media_line in P. cbn [without_count ml_media ml_port ml_port_count ml_proto ml_formats] in P.
  exact P.
Qed.
End WithExt.

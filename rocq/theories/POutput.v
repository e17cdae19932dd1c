(** * What the example program prints (proofs for C72) *)
From Coq Require Import List NArith ZArith Bool Ascii String Lia.
From Coq Require Import ZifyBool ZifyNat ZifyN.
From Verif Require Import Str Num Net Types Ext Show Session.
From Verif Require Import StrLemmas NumLemmas NetLemmas.
From Verif Require Import SpecApi SpecDoc SpecVal PPanic PDoc PDoc2 PVal PVal8 PVal9 Tools SpecTools PTools.
From Verif Require Import SpecUnsup SpecSeq SpecWarn SpecWhy SpecCause SpecOutcome POutcome Output SpecOutput.
Import ListNotations.
Open Scope N_scope.
Open Scope list_scope.

Section WithExt.
Context {E : Ext}.

Lemma together : forall k, Forall (fun x => ~ In 10 x) k -> exists d, put_together k d.
Proof.
  induction k as [|x k IH]; intro F; [eexists; constructor|]. destruct k as [|y k]; [eexists; constructor|].
  destruct (IH (Forall_inv_tail F)) as (d & P). eexists. constructor. exact P.
Qed.
Lemma together_text : forall k d, put_together k d -> doc_text d = join crlf k.
Proof.
  intros k d H. induction H as [|x|x y l d H IH]; [reflexivity | reflexivity|].
  change (join crlf (x :: y :: l)) with (x ++ crlf ++ join crlf (y :: l)). rewrite <- IH.
  unfold doc_text. cbn [d_lines d_last flat_map fst snd eol_text]. rewrite <- !app_assoc. reflexivity.
Qed.
Lemma together_ok : forall k d, put_together k d -> Forall (fun x => ~ In 10 x) k -> doc_ok d.
Proof.
  intros k d H. induction H as [|x|x y l d H IH]; intro F.
  - split; [constructor | intros []].
  - split; [constructor | exact (Forall_inv F)].
  - destruct (IH (Forall_inv_tail F)) as [D1 D2]. split; [constructor; [split; [exact (Forall_inv F) | exact I] | exact D1] | exact D2].
Qed.
Lemma together_lines : forall k d, put_together k d -> doc_lines d = k \/ k = doc_lines d ++ [[]].
Proof.
  intros k d H. induction H as [|x|x y l d H IH]; [left; reflexivity| |].
  - unfold doc_lines. cbn. destruct x; [right | left]; reflexivity.
  - unfold doc_lines in *. cbn [d_lines d_last map fst app]. destruct IH as [Q|Q]; [left|right]; rewrite Q; reflexivity.
Qed.
Lemma together_fun : forall k d, put_together k d -> forall d', put_together k d' -> d' = d.
Proof.
  intros k d H. induction H as [|x|x y l d H IH]; intros d' H'; inversion H'; subst; try reflexivity.
  match goal with K : put_together (y :: l) _ |- _ => rewrite (IH _ K) end. reflexivity.
Qed.

Definition stripped (t : str) : str := join crlf (filter (fun l => negb (commentb l)) (lines t)).
Lemma file_reads : ext_total E -> forall t r, (Z.of_nat (List.length t) < 1073741824)%Z ->
  parse_sdp (stripped t) true = r -> file_outcome t r.
Proof.
  intros T t r L P. destruct (every_text_is_doc t) as (d & D & <-). unfold stripped in P. rewrite (lines_doc d D) in P.
  pose proof (join_length (fun l => negb (commentb l)) d D) as JL.
  set (k := filter (fun l => negb (commentb l)) (doc_lines d)) in *.
  assert (F : Forall (fun x => ~ In 10 x) k).
  { apply Forall_forall. intros x I. apply filter_In in I. apply (proj1 (Forall_forall _ _) (doc_no_lf d D)), I. }
  destruct (together k F) as (d' & H). exists d, k, d'. split; [exact D|]. split; [reflexivity|].
  split; [apply kept_iff; reflexivity|]. split; [exact H|]. pose proof (together_text _ _ H) as Tx. rewrite <- Tx in *.
  apply (sound T); [exact (together_ok _ _ H F) | unfold short; lia | exact P].
Qed.
Lemma named_line : forall t p e line n, file_outcome t (Err p) -> p = PLine e line n \/ p = PUnsupported e line n ->
  exists d k, doc_ok d /\ doc_text d = t /\ SpecTools.kept (doc_lines d) k /\
    (nth_error k n = Some line \/ joined_bytes k < 51).
Proof.
  intros t p e line n (d & k & d' & D & Tx & K & H & O) Q. exists d, k. split; [exact D|]. split; [exact Tx|]. split; [exact K|].
  rewrite joined_join, <- (together_text _ _ H).
  assert (X : nth_error (doc_lines d') n = Some line -> nth_error k n = Some line).
  { intro X. destruct (together_lines _ _ H) as [<- | ->]; [exact X|]. rewrite nth_error_app1; [exact X|]. apply nth_error_Some. congruence. }
  assert (Y : forall (pre : list str) x post, nth_error (pre ++ x :: post) (List.length pre) = Some x).
  { intros pre x post. rewrite nth_error_app2, Nat.sub_diag; [reflexivity | apply Nat.le_refl]. }
  inversion O as [Z|Z1 Z2|pre x post w B Sb Dl Nu Nb U W|pre x post e' B Nu Dl Nb R Nr|l us m i B Kp Us Br|]; subst.
  - right. rewrite Z. reflexivity.
  - right. exact Z2.
  - left. apply X. rewrite Dl. destruct W as (m & -> & _). destruct Q as [Q|Q]; inversion Q; subst. apply Y.
  - left. apply X. rewrite Dl. destruct Q as [Q|Q]; inversion Q; subst. apply Y.
  - destruct Q as [Q|Q]; inversion Q.
Qed.

Section Run.
Context (debug : session -> str) (os_error : str -> str) (pm : str).
Lemma run_status : forall args fs, snd (file_parser_run debug os_error pm args fs) = file_parser args fs.
Proof.
  intros args fs. unfold file_parser_run, file_parser. destruct args as [|p [|f rest]]; try reflexivity.
  destruct (fs f) as [| |t]; try reflexivity. destruct rest as [|x rest]; [|destruct (negb _); [reflexivity|]];
    (destruct (parse_sdp _ true); reflexivity).
Qed.
Lemma run_prints : ext_total E -> forall args fs,
  (forall f t, fs f = Contents t -> (Z.of_nat (List.length t) < 1073741824)%Z) ->
  prints debug os_error fs args (fst (file_parser_run debug os_error pm args fs)) (snd (file_parser_run debug os_error pm args fs)).
Proof.
  intros T args fs L.
  assert (FL : forall x, expect_failure x <-> to_lower x = lit "--expect-failure") by (intro; apply means_iff; reflexivity).
  unfold file_parser_run. destruct args as [|p [|f rest]]; [apply prints_no_file; cbn; lia | apply prints_no_file; cbn; lia|].
  destruct (fs f) as [| |t] eqn:Hf.
  - cbn [fst snd]. replace (fmt _ _) with (of_string "Failed to open " ++ f ++ [58; 32] ++ os_error f).
    + apply prints_unopened, Hf.
    + unfold fmt. cbn. rewrite app_nil_r. reflexivity.
  - cbn [fst snd]. replace (fmt _ _) with (of_string "Couldn't read " ++ f ++ [58; 32] ++ os_error f).
    + apply prints_unread, Hf.
    + unfold fmt. cbn. rewrite app_nil_r. reflexivity.
  - assert (G : forall r, parse_sdp (stripped t) true = r -> file_outcome t r) by (intros r; apply (file_reads T), (L f t Hf)).
    change (join crlf (filter (fun l => negb (starts_with_char 59 (trim_start l))) (lines t))) with (stripped t).
    assert (M1 : forall s, fmt "Parsed SDP structure:{}{}" [[10]; debug s] = of_string "Parsed SDP structure:" ++ [10] ++ debug s).
    { intro s. unfold fmt. cbn. rewrite app_nil_r. reflexivity. }
    assert (M2 : forall e, fmt "Failed to parse SDP with error: {}" [show_perr e] = of_string "Failed to parse SDP with error: " ++ show_perr e).
    { intro e. unfold fmt. cbn. rewrite app_nil_r. reflexivity. }
    assert (Np : parse_sdp (stripped t) true <> Panic).
    { intro K. destruct (G _ K) as (? & ? & ? & _ & _ & _ & _ & O). inversion O. }
    destruct rest as [|x rest].
    + destruct (parse_sdp (stripped t) true) as [s|e|] eqn:P; [| |congruence]; cbn [fst snd]; rewrite ?M1, ?M2.
      * apply (prints_good debug os_error fs p f t s Hf), G. reflexivity.
      * apply (prints_bad debug os_error fs p f t e Hf), G. reflexivity.
    + destruct (str_eqb_spec (to_lower x) (lit "--expect-failure")) as [Q|Q]; cbn [negb].
      * apply FL in Q. destruct (parse_sdp (stripped t) true) as [s|e|] eqn:P; [| |congruence]; cbn [fst snd]; rewrite ?M1.
        -- apply (prints_unexpected_good debug os_error fs p f x rest t s Hf Q), G. reflexivity.
        -- apply (prints_expected_bad debug os_error fs p f x rest t e Hf Q), G. reflexivity.
      * rewrite <- FL in Q. apply (prints_bad_flag debug os_error fs p f x rest t Hf Q).
Qed.
End Run.
End WithExt.

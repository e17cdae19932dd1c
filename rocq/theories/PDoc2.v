(** * Proofs: reading the lines of a text (C02-C05, C37, C39, C40) *)
From Coq Require Import List NArith ZArith Bool Ascii String Lia Sorting.Sorted.
From Coq Require Import ZifyBool ZifyNat ZifyN.
From Verif Require Import Str Num Net Types Ext Show AttrParse Media Session
  StrLemmas NumLemmas SpecApi PApi SpecDoc PPanic PDoc.
Import ListNotations.
Open Scope N_scope.
Open Scope list_scope.

Section WithExt.
Context {E : Ext}.

(** ** One line *)
Lemma line_err : forall line n e, parse_sdp_line line n = Err e ->
  (exists x, e = PUnsupported x line n) \/ (exists x, e = PLine x line n).
Proof.
  intros line n e H. unfold parse_sdp_line in H.
  destruct (negb _); [inv H; eauto|]. destruct (splitn 2 c_eq line) as [|t [|v r]]; [inv H; eauto| |].
  - cbv zeta in H. destruct (1 <? _); [inv H; eauto|]. destruct (is_empty _); inv H; eauto.
  - cbv zeta in H. destruct (1 <? _); [inv H; eauto|]. destruct (is_empty (trim t)); [inv H; eauto|].
    destruct (_ && _); [inv H; eauto|]. destruct (parse_value _ _ _); inv H. unfold line_error.
    destruct e0; eauto.
Qed.
Definition renumber (n : nat) (l : sdp_line) : sdp_line :=
  {| l_number := n; l_type := l_type l; l_text := l_text l |}.
Definition renumber_err (n : nat) (e : perr) : perr :=
  match e with PLine x l _ => PLine x l n | PUnsupported x l _ => PUnsupported x l n
             | PSequence m _ => PSequence m n end.
Lemma line_renumber : forall line n m, parse_sdp_line line m =
  match parse_sdp_line line n with
  | Ok l => Ok (renumber m l) | Err e => Err (renumber_err m e) | Panic => Panic end.
Proof.
  intros line n m. unfold parse_sdp_line.
  destruct (negb _); [auto|]. destruct (splitn 2 c_eq line) as [|t [|v r]]; [auto| |].
  - cbv zeta. destruct (1 <? _); [auto|]. destruct (is_empty _); auto.
  - cbv zeta. destruct (1 <? _); [auto|]. destruct (is_empty (trim t)); [auto|].
    destruct (_ && _); [auto|]. destruct (parse_value _ _ _); auto. unfold line_error.
    destruct e; auto.
Qed.
Lemma line_ok_fields : forall line n l, parse_sdp_line line n = Ok l -> l_number l = n /\ l_text l = line.
Proof.
  intros line n l H. unfold parse_sdp_line in H.
  destruct (negb _); [inv H|]. destruct (splitn 2 c_eq line) as [|t [|v r]]; [inv H| |].
  - cbv zeta in H. destruct (1 <? _); [inv H|]. destruct (is_empty _); inv H.
  - cbv zeta in H. destruct (1 <? _); [inv H|]. destruct (is_empty (trim t)); [inv H|].
    destruct (_ && _); [inv H|]. destruct (parse_value _ _ _); inv H. auto.
Qed.

(** ** The loop over the lines, as a relation *)
Inductive Scan : nat -> list str -> list sdp_line -> list perr -> list perr -> Prop :=
| Scan_nil : forall n, Scan n [] [] [] []
| Scan_blank : forall n x r L H W, blank x -> Scan (S n) r L H W -> Scan n (x :: r) L H W
| Scan_ok : forall n x r L H W l, ~ blank x -> parse_sdp_line x n = Ok l ->
    Scan (S n) r L H W -> Scan n (x :: r) (l :: L) H W
| Scan_warn : forall n x r L H W e, ~ blank x -> parse_sdp_line x n = Err (PUnsupported e x n) ->
    Scan (S n) r L H W -> Scan n (x :: r) L H (PUnsupported e x n :: W)
| Scan_hard : forall n x r L H W e, ~ blank x -> parse_sdp_line x n = Err (PLine e x n) ->
    Scan (S n) r L H W -> Scan n (x :: r) L (PLine e x n :: H) W.

Lemma scan_scan : forall ls n acc sc, scan_lines n acc ls = Ok sc <->
  exists L H W, Scan n ls L H W /\
    sc = {| sc_lines := sc_lines acc ++ L; sc_errors := sc_errors acc ++ H; sc_warnings := sc_warnings acc ++ W |}.
Proof.
  induction ls as [|x ls IH]; intros n acc sc; cbn [scan_lines].
  - split.
    + intros H. inv H. exists [], [], []. split; [constructor|]. rewrite !app_nil_r. destruct sc; auto.
    + intros [L [H [W [S ->]]]]. inv S. rewrite !app_nil_r. destruct acc; auto.
  - destruct (is_empty (trim x)) eqn:B.
    + rewrite IH. apply blank_trim in B. split; intros [L [H [W [S ->]]]].
      * exists L, H, W. split; auto. constructor; auto.
      * inv S; try contradiction. eauto 6.
    + apply blank_trim_false in B. destruct (parse_sdp_line x n) as [l|e|] eqn:P.
      * rewrite IH. cbn. split; intros [L [H [W [S ->]]]].
        -- exists (l :: L), H, W. split; [apply Scan_ok; auto|]. rewrite <- app_assoc. auto.
        -- inv S; try contradiction; try congruence. exists L0, H, W. split; auto.
           assert (l0 = l) by congruence. subst. rewrite <- app_assoc. auto.
      * destruct (line_err _ _ _ P) as [[y ->]|[y ->]]; rewrite IH; cbn; split; intros [L [H [W [S ->]]]].
        -- exists L, H, (PUnsupported y x n :: W). split; [apply Scan_warn; auto|]. rewrite <- app_assoc. auto.
        -- inv S; try contradiction; try congruence. match goal with K : parse_sdp_line x n = Err _ |- _ => rewrite P in K; inv K end.
           exists L, H, W0. split; auto. rewrite <- app_assoc. auto.
        -- exists L, (PLine y x n :: H), W. split; [apply Scan_hard; auto|]. rewrite <- app_assoc. auto.
        -- inv S; try contradiction; try congruence. match goal with K : parse_sdp_line x n = Err _ |- _ => rewrite P in K; inv K end.
           exists L, H0, W. split; auto. rewrite <- app_assoc. auto.
      * split; [discriminate|]. intros [L [H [W [S _]]]]. inv S; try contradiction; congruence.
Qed.
Definition no_scan : scan := {| sc_lines := []; sc_errors := []; sc_warnings := [] |}.
Lemma scan_run : forall ls L H W, Scan 0 ls L H W ->
  scan_lines 0 no_scan ls = Ok {| sc_lines := L; sc_errors := H; sc_warnings := W |}.
Proof. intros ls L H W S. apply scan_scan. exists L, H, W. auto. Qed.
Definition finish (b : bool) (L : list sdp_line) (H W : list perr) : res perr session :=
  match b, W with
  | true, w :: _ => Err w
  | _, _ => match last_error H with
            | Some e => Err e
            | None => s <- parse_sdp_vector L ;; Ok (session_with_warnings W s)
            end
  end.
Lemma parse_scan : forall sdp b L H W, 51 <= byte_len sdp -> Scan 0 (lines sdp) L H W ->
  parse_sdp sdp b = finish b L H W.
Proof.
  intros sdp b L H W B S. unfold parse_sdp.
  destruct sdp as [|c s]; [cbn in B; lia|]. cbn [is_empty].
  replace (byte_len (c :: s) <? 51) with false by lia.
  rewrite (proj2 (scan_scan _ 0%nat no_scan {| sc_lines := L; sc_errors := H; sc_warnings := W |}))
    by eauto 8. reflexivity.
Qed.
Lemma parse_short : forall sdp b, byte_len sdp < 51 -> exists e, parse_sdp sdp b = Err (PLine e sdp 0).
Proof.
  intros sdp b B. unfold parse_sdp. destruct (is_empty sdp); eauto.
  replace (byte_len sdp <? 51) with true by lia. eauto.
Qed.
(** Either the loop finishes or both modes panic. *)
Lemma parse_cases : forall sdp, 51 <= byte_len sdp ->
  (exists L H W, Scan 0 (lines sdp) L H W) \/ (forall b, parse_sdp sdp b = Panic).
Proof.
  intros sdp B. destruct (scan_lines 0 no_scan (lines sdp)) as [sc|e|] eqn:K.
  - apply scan_scan in K. destruct K as [L [H [W [S _]]]]. left. eauto.
  - exfalso. revert K. generalize no_scan, 0%nat. induction (lines sdp) as [|x l IH]; intros acc n; cbn [scan_lines]; [discriminate|].
    destruct (is_empty (trim x)); [apply IH|]. destruct (parse_sdp_line x n) as [|[]|]; try apply IH. discriminate.
  - right. intros b. unfold parse_sdp. destruct sdp as [|c s]; [cbn in B; lia|]. cbn [is_empty].
    replace (byte_len (c :: s) <? 51) with false by lia. fold no_scan. rewrite K. auto.
Qed.

(** ** C02 *)
Lemma with_warnings_same : forall w s, s_warnings (session_with_warnings w s) = w.
Proof. reflexivity. Qed.
Lemma strict_iff : forall sdp s,
  parse_sdp sdp true = Ok s <-> parse_sdp sdp false = Ok s /\ s_warnings s = [].
Proof.
  intros sdp s. destruct (N.lt_ge_cases (byte_len sdp) 51) as [B|B].
  - destruct (parse_short sdp true B) as [e He], (parse_short sdp false B) as [e' He']. rewrite He, He'.
    split; [discriminate|intros [? _]; discriminate].
  - destruct (parse_cases sdp B) as [[L [H [W S]]]|P].
    + rewrite !(parse_scan _ _ _ _ _ B S). unfold finish. destruct W as [|w W].
      * destruct (last_error H); [split; [discriminate|intros [? _]; discriminate]|].
        split; [|tauto]. intros K. split; auto. apply bind_ok in K. destruct K as [s0 [_ K]]. inv K. auto.
      * split; [discriminate|]. intros [K1 K2]. destruct (last_error H); [discriminate|].
        apply bind_ok in K1. destruct K1 as [s0 [_ K]]. inv K. discriminate.
    + rewrite !P. split; [discriminate|intros [? _]; discriminate].
Qed.
Lemma strict_first_warning : forall sdp s w ws,
  parse_sdp sdp false = Ok s -> s_warnings s = w :: ws -> parse_sdp sdp true = Err w.
Proof.
  intros sdp s w ws H Hw. destruct (N.lt_ge_cases (byte_len sdp) 51) as [B|B].
  - destruct (parse_short sdp false B) as [e He]. congruence.
  - destruct (parse_cases sdp B) as [[L [Hs [W S]]]|P].
    + rewrite (parse_scan _ _ _ _ _ B S) in H. rewrite (parse_scan _ _ _ _ _ B S). unfold finish in *.
      destruct (last_error Hs); [discriminate|]. apply bind_ok in H. destruct H as [s0 [_ K]]. inv K. cbn in Hw. subst W. reflexivity.
    + rewrite P in H. discriminate.
Qed.
Lemma Scan_warnings : forall n ls L H W, Scan n ls L H W ->
  (forall i x, nth_error ls i = Some x -> ~ blank x -> forall e, parse_sdp_line x (n + i) <> Err (PUnsupported e x (n + i))) ->
  W = [].
Proof.
  intros n ls L H W S. induction S; intros F; auto.
  - apply IHS. intros i y Hy. replace (Datatypes.S n + i)%nat with (n + Datatypes.S i)%nat by lia. apply F. exact Hy.
  - apply IHS. intros i y Hy. replace (Datatypes.S n + i)%nat with (n + Datatypes.S i)%nat by lia. apply F. exact Hy.
  - exfalso. apply (F 0%nat x eq_refl H0 e). rewrite Nat.add_0_r. auto.
  - apply IHS. intros i y Hy. replace (Datatypes.S n + i)%nat with (n + Datatypes.S i)%nat by lia. apply F. exact Hy.
Qed.
Lemma modes_equal : forall sdp,
  (forall i line e, line_result sdp i line (Err e) -> ~ is_unsupported e) ->
  parse_sdp sdp true = parse_sdp sdp false.
Proof.
  intros sdp F. destruct (N.lt_ge_cases (byte_len sdp) 51) as [B|B].
  - unfold parse_sdp. destruct (is_empty sdp); auto. replace (byte_len sdp <? 51) with true by lia. auto.
  - destruct (parse_cases sdp B) as [[L [H [W S]]]|P]; [|rewrite !P; auto].
    rewrite !(parse_scan _ _ _ _ _ B S).
    rewrite (Scan_warnings _ _ _ _ _ S); [reflexivity|]. intros i x Hx Bx e K.
    eapply (F i x); [split; [exact Hx|split; [exact Bx|exact K]]|]. unfold is_unsupported. eauto.
Qed.

(** ** C03, C04: which line each error comes from *)
Definition comes_from (n : nat) (ls : list str) (i : nat) (e : perr) : Prop :=
  exists k x, i = (n + k)%nat /\ nth_error ls k = Some x /\ ~ blank x /\ parse_sdp_line x i = Err e.
Lemma comes_from_S : forall n x ls i e, comes_from (S n) ls i e -> comes_from n (x :: ls) i e.
Proof. intros n x ls i e [k [y [-> H]]]. exists (S k), y. split; [lia|]. auto. Qed.
Lemma Forall2_mono : forall A B (P Q : A -> B -> Prop) l1 l2, (forall a b, P a b -> Q a b) ->
  Forall2 P l1 l2 -> Forall2 Q l1 l2.
Proof. intros A B P Q l1 l2 H F. induction F; constructor; auto. Qed.
Lemma Scan_indices : forall n ls L H W, Scan n ls L H W -> exists ih iw,
  StronglySorted lt ih /\ StronglySorted lt iw /\
  Forall (fun i => n <= i)%nat ih /\ Forall (fun i => n <= i)%nat iw /\
  Forall2 (comes_from n ls) ih H /\ Forall2 (comes_from n ls) iw W /\
  (forall k x, nth_error ls k = Some x -> ~ blank x ->
     (exists l, parse_sdp_line x (n + k) = Ok l) \/ In (n + k)%nat ih \/ In (n + k)%nat iw).
Proof.
  intros n ls L H W S. induction S.
  - exists [], []. do 6 (split; [constructor|]). intros [|k] y Hy; discriminate.
  - destruct IHS as [ih [iw [S1 [S2 [G1 [G2 [F1 [F2 C]]]]]]]]. exists ih, iw.
    repeat split; auto.
    + eapply Forall_impl; [|exact G1]. cbn; intros; lia.
    + eapply Forall_impl; [|exact G2]. cbn; intros; lia.
    + eapply Forall2_mono; [|exact F1]. intros; apply comes_from_S; auto.
    + eapply Forall2_mono; [|exact F2]. intros; apply comes_from_S; auto.
    + intros [|k] y Hy B; [inv Hy; contradiction|].
      replace (n + Datatypes.S k)%nat with (Datatypes.S n + k)%nat by lia. auto.
  - destruct IHS as [ih [iw [S1 [S2 [G1 [G2 [F1 [F2 C]]]]]]]]. exists ih, iw.
    repeat split; auto.
    + eapply Forall_impl; [|exact G1]. cbn; intros; lia.
    + eapply Forall_impl; [|exact G2]. cbn; intros; lia.
    + eapply Forall2_mono; [|exact F1]. intros; apply comes_from_S; auto.
    + eapply Forall2_mono; [|exact F2]. intros; apply comes_from_S; auto.
    + intros [|k] y Hy B; [inv Hy; left; rewrite Nat.add_0_r; eauto|].
      replace (n + Datatypes.S k)%nat with (Datatypes.S n + k)%nat by lia. auto.
  - destruct IHS as [ih [iw [S1 [S2 [G1 [G2 [F1 [F2 C]]]]]]]]. exists ih, (n :: iw).
    repeat split; auto.
    + constructor; auto.
    + eapply Forall_impl; [|exact G1]. cbn; intros; lia.
    + constructor; [lia|]. eapply Forall_impl; [|exact G2]. cbn; intros; lia.
    + eapply Forall2_mono; [|exact F1]. intros; apply comes_from_S; auto.
    + constructor; [exists 0%nat, x; repeat split; auto|].
      eapply Forall2_mono; [|exact F2]. intros; apply comes_from_S; auto.
    + intros [|k] y Hy B; [right; right; left; lia|].
      replace (n + Datatypes.S k)%nat with (Datatypes.S n + k)%nat by lia.
      destruct (C k y Hy B) as [C1|[C1|C1]]; auto. right; right; right; auto.
  - destruct IHS as [ih [iw [S1 [S2 [G1 [G2 [F1 [F2 C]]]]]]]]. exists (n :: ih), iw.
    repeat split; auto.
    + constructor; auto.
    + constructor; [lia|]. eapply Forall_impl; [|exact G1]. cbn; intros; lia.
    + eapply Forall_impl; [|exact G2]. cbn; intros; lia.
    + constructor; [exists 0%nat, x; repeat split; auto|].
      eapply Forall2_mono; [|exact F1]. intros; apply comes_from_S; auto.
    + eapply Forall2_mono; [|exact F2]. intros; apply comes_from_S; auto.
    + intros [|k] y Hy B; [right; left; left; lia|].
      replace (n + Datatypes.S k)%nat with (Datatypes.S n + k)%nat by lia.
      destruct (C k y Hy B) as [C1|[C1|C1]]; auto. right; left; right; auto.
Qed.
Lemma Scan_kinds : forall n ls L H W, Scan n ls L H W ->
  Forall is_unsupported W /\ Forall (fun e => ~ is_unsupported e) H.
Proof.
  intros n ls L H W S. induction S; auto; destruct IHS as [K1 K2]; split; auto; constructor; auto.
  - unfold is_unsupported. eauto.
  - intros [? [? [? K]]]. discriminate.
Qed.
Lemma last_error_nil : forall l, last_error l = None <-> l = [].
Proof.
  intros l. unfold last_error. split; [|intros ->; auto]. destruct l as [|x l]; auto.
  cbn [rev]. destruct (rev l); discriminate.
Qed.
Lemma parse_ok_scan : forall sdp b s, parse_sdp sdp b = Ok s -> 51 <= byte_len sdp /\
  exists L W, Scan 0 (lines sdp) L [] W /\ (b = true -> W = []) /\ s_warnings s = W /\
  exists s0, parse_sdp_vector L = Ok s0 /\ s = session_with_warnings W s0.
Proof.
  intros sdp b s H. destruct (N.lt_ge_cases (byte_len sdp) 51) as [B|B].
  - destruct (parse_short sdp b B) as [e He]. congruence.
  - split; auto. destruct (parse_cases sdp B) as [[L [Hs [W S]]]|P]; [|rewrite P in H; discriminate].
    rewrite (parse_scan _ _ _ _ _ B S) in H. unfold finish in H.
    assert (X : last_error Hs = None /\ (b = true -> W = []) /\
      exists s0, parse_sdp_vector L = Ok s0 /\ s = session_with_warnings W s0).
    { destruct b, W as [|w W]; try discriminate; destruct (last_error Hs); try discriminate;
        apply bind_ok in H; destruct H as [s0 [K1 K2]]; inv K2; split; auto; split; eauto; discriminate. }
    destruct X as [X1 [X2 [s0 [X3 X4]]]]. apply last_error_nil in X1. subst Hs.
    exists L, W. split; auto. split; auto. split; [subst s; auto|]. eauto.
Qed.

Lemma warnings_exact : forall sdp s, parse_sdp sdp false = Ok s ->
  exists idxs, StronglySorted lt idxs /\
    Forall2 (fun i w => exists line e, line_result sdp i line (Err w) /\ w = PUnsupported e line i)
      idxs (s_warnings s) /\
    (forall i line, nth_error (lines sdp) i = Some line -> ~ In i idxs ->
       blank line \/ exists l, parse_sdp_line line i = Ok l).
Proof.
  intros sdp s H. destruct (parse_ok_scan _ _ _ H) as [B [L [W [S [_ [HW _]]]]]].
  destruct (Scan_indices _ _ _ _ _ S) as [ih [iw [S1 [S2 [_ [_ [F1 [F2 C]]]]]]]]. inv F1.
  destruct (Scan_kinds _ _ _ _ _ S) as [U _].
  exists iw. split; auto. split.
  - clear C S2 S H. revert U. induction F2 as [|i w iw W [k [x [-> [K1 [K2 K3]]]]] F2 IH]; intros U; constructor.
    + inv U. destruct (line_err _ _ _ K3) as [[y ->]|[y ->]].
      * exists x, y. split; auto. split; auto.
      * destruct H1 as [? [? [? ?]]]. discriminate.
    + apply IH. inv U. auto.
  - intros i line Hi N. destruct (blank_dec line) as [Y|Y]; auto. right.
    destruct (C i line Hi Y) as [C1|[[]|C1]]; auto. contradiction.
Qed.

(** ** C04 *)
Lemma sorted_split : forall (l : list nat) i, StronglySorted lt l -> In i l ->
  exists a b, l = a ++ i :: b /\ Forall (fun j => (j < i)%nat) a /\ Forall (fun j => (i < j)%nat) b.
Proof.
  intros l i S. induction S as [|x l S IH F]; intros K; [contradiction|].
  destruct K as [->|K].
  - exists [], l. auto.
  - destruct (IH K) as [a [b [-> [H1 H2]]]]. exists (x :: a), b. split; auto. split; auto.
    constructor; auto. rewrite Forall_forall in F. apply F. apply in_app_iff. right; left; auto.
Qed.
Lemma scan_total : ext_total E -> forall sdp, (Z.of_nat (List.length sdp) < 2 ^ 31)%Z -> 51 <= byte_len sdp ->
  exists L H W, Scan 0 (lines sdp) L H W.
Proof.
  intros OK sdp Sh B. destruct (parse_cases sdp B) as [S|P]; auto.
  exfalso. apply (parse_sdp_np OK sdp true Sh). auto.
Qed.
Lemma comes_from_line : forall sdp i e, comes_from 0 (lines sdp) i e <-> exists line, line_result sdp i line (Err e).
Proof.
  intros sdp i e. split.
  - intros [k [x [-> [H1 [H2 H3]]]]]. exists x. split; auto.
  - intros [x [H1 [H2 H3]]]. exists i, x. auto.
Qed.
Lemma from_unique : forall sdp i e e', comes_from 0 (lines sdp) i e -> comes_from 0 (lines sdp) i e' -> e = e'.
Proof.
  intros sdp i e e' [k [x [-> [H1 [_ H2]]]]] [k' [x' [Hk [H1' [_ H2']]]]]. cbn in *. subst k'.
  rewrite H1 in H1'. inv H1'. congruence.
Qed.
Lemma Forall2_In_r : forall A B (P : A -> B -> Prop) l1 l2 y, Forall2 P l1 l2 -> In y l2 -> exists x, In x l1 /\ P x y.
Proof.
  intros A B P l1 l2 y F. induction F as [|a b l1 l2 Hab F IH]; intros K; [contradiction|].
  destruct K as [->|K].
  - exists a. split; [left|]; auto.
  - destruct (IH K) as [z [? ?]]. exists z. split; [right|]; auto.
Qed.
(** Where an error at line [i] sits in the lists of the loop. *)
Lemma scan_has : forall sdp L H W i e, Scan 0 (lines sdp) L H W -> comes_from 0 (lines sdp) i e ->
  exists pre post,
    ((is_unsupported e /\ W = pre ++ e :: post) \/ (~ is_unsupported e /\ H = pre ++ e :: post)) /\
    Forall (fun e' => exists j, (j < i)%nat /\ comes_from 0 (lines sdp) j e') pre /\
    Forall (fun e' => exists j, (i < j)%nat /\ comes_from 0 (lines sdp) j e') post.
Proof.
  intros sdp L H W i e S C. destruct (Scan_kinds _ _ _ _ _ S) as [U1 U2].
  destruct (Scan_indices _ _ _ _ _ S) as [ih [iw [S1 [S2 [_ [_ [F1 [F2 K]]]]]]]].
  assert (X : forall ids es, StronglySorted lt ids -> Forall2 (comes_from 0 (lines sdp)) ids es -> In i ids ->
    exists pre post, es = pre ++ e :: post /\
    Forall (fun e' => exists j, (j < i)%nat /\ comes_from 0 (lines sdp) j e') pre /\
    Forall (fun e' => exists j, (i < j)%nat /\ comes_from 0 (lines sdp) j e') post).
  { intros ids es SS FF Hi. destruct (sorted_split _ _ SS Hi) as [a [b [-> [A1 A2]]]].
    apply Forall2_app_inv_l in FF. destruct FF as [pre [es' [Q1 [Q2 ->]]]]. inv Q2.
    exists pre, l'. split; [f_equal; f_equal; eapply from_unique; eauto|]. split; apply Forall_forall; intros e' He'.
    - destruct (Forall2_In_r _ _ _ _ _ _ Q1 He') as [j [Hj Cj]]. rewrite Forall_forall in A1. eauto.
    - match goal with Q : Forall2 _ b _ |- _ => rename Q into QQ end. destruct (Forall2_In_r _ _ _ _ _ _ QQ He') as [j [Hj Cj]]. rewrite Forall_forall in A2. eauto. }
  pose proof C as C0. destruct C0 as [k [x [Hi [H1 [H2 H3]]]]]. cbn in Hi. subst k.
  destruct (K i x H1 H2) as [[l Hl]|[Hi|Hi]]; [cbn in *; congruence| |]; cbn in Hi.
  - destruct (X _ _ S1 F1 Hi) as [pre [post [Q1 Q2]]]. exists pre, post. split; auto. right. split; auto.
    subst H. rewrite Forall_forall in U2. apply U2. apply in_app_iff. right; left; auto.
  - destruct (X _ _ S2 F2 Hi) as [pre [post [Q1 Q2]]]. exists pre, post. split; auto. left. split; auto.
    subst W. rewrite Forall_forall in U1. apply U1. apply in_app_iff. right; left; auto.
Qed.
Lemma first_warning : ext_total E -> forall sdp, (Z.of_nat (List.length sdp) < 2 ^ 31)%Z -> 51 <= byte_len sdp ->
  forall i line e, line_result sdp i line (Err e) -> is_unsupported e ->
  (forall j line' e', (j < i)%nat -> line_result sdp j line' (Err e') -> ~ is_unsupported e') ->
  parse_sdp sdp true = Err e.
Proof.
  intros OK sdp Sh B i line e R U F. destruct (scan_total OK sdp Sh B) as [L [H [W S]]].
  destruct (scan_has _ _ _ _ i e S) as [pre [post [[[_ Q]|[Q _]] [P1 P2]]]]; [apply comes_from_line; eauto| |contradiction].
  rewrite (parse_scan _ _ _ _ _ B S). unfold finish. destruct pre as [|p pre].
  - cbn in Q. subst W. auto.
  - exfalso. inv P1. destruct H2 as [j [J1 J2]]. apply comes_from_line in J2. destruct J2 as [l' J2].
    apply (F j l' p J1 J2). destruct (Scan_kinds _ _ _ _ _ S) as [U1 _]. inv U1. auto.
Qed.
Lemma last_hard : ext_total E -> forall sdp, (Z.of_nat (List.length sdp) < 2 ^ 31)%Z -> 51 <= byte_len sdp ->
  forall b i line e, line_result sdp i line (Err e) -> ~ is_unsupported e ->
  (forall j line' e', (i < j)%nat -> line_result sdp j line' (Err e') -> is_unsupported e') ->
  (b = true -> forall j line' e', line_result sdp j line' (Err e') -> ~ is_unsupported e') ->
  parse_sdp sdp b = Err e.
Proof.
  intros OK sdp Sh B b i line e R U F FB. destruct (scan_total OK sdp Sh B) as [L [H [W S]]].
  destruct (scan_has _ _ _ _ i e S) as [pre [post [[[Q _]|[_ Q]] [P1 P2]]]]; [apply comes_from_line; eauto|contradiction|].
  rewrite (parse_scan _ _ _ _ _ B S). unfold finish.
  assert (post = []).
  { destruct post as [|p post]; auto. exfalso. inv P2. destruct H2 as [j [J1 J2]]. apply comes_from_line in J2.
    destruct J2 as [l' J2]. destruct (Scan_kinds _ _ _ _ _ S) as [_ U2]. rewrite Forall_forall in U2.
    apply (U2 p); [apply in_app_iff; right; right; left; auto|]. eapply F; eauto. }
  subst post. assert (LE : last_error H = Some e) by (subst H; unfold last_error; rewrite rev_unit; auto).
  rewrite LE. destruct b; auto. destruct W as [|w W]; auto. exfalso.
  destruct (Scan_indices _ _ _ _ _ S) as [ih [iw [_ [_ [_ [_ [_ [F2 _]]]]]]]]. inv F2.
  match goal with Q : comes_from _ _ _ w |- _ => apply comes_from_line in Q; destruct Q as [l' Q]; apply (FB eq_refl _ _ _ Q) end.
  destruct (Scan_kinds _ _ _ _ _ S) as [U1 _]. inv U1. auto.
Qed.
Lemma sequence_only : ext_total E -> forall sdp, (Z.of_nat (List.length sdp) < 2 ^ 31)%Z -> 51 <= byte_len sdp ->
  forall b, (forall i line e, line_result sdp i line (Err e) -> is_unsupported e /\ b = false) ->
  (exists s, parse_sdp sdp b = Ok s) \/ (exists m n, parse_sdp sdp b = Err (PSequence m n)).
Proof.
  intros OK sdp Sh B b F. destruct (scan_total OK sdp Sh B) as [L [H [W S]]].
  destruct (Scan_indices _ _ _ _ _ S) as [ih [iw [_ [_ [_ [_ [F1 [F2 _]]]]]]]].
  destruct (Scan_kinds _ _ _ _ _ S) as [U1 U2]. rewrite (parse_scan _ _ _ _ _ B S). unfold finish.
  assert (H = []).
  { destruct H as [|h H]; auto. exfalso. inv F1. inv U2.
    match goal with Q : comes_from _ _ _ h, Q2 : ~ is_unsupported h |- _ => apply comes_from_line in Q; destruct Q as [l' Q]; apply Q2; apply (F _ _ _ Q) end. }
  subst H. cbn [last_error rev hd_error].
  assert (X : (exists s, (s <- parse_sdp_vector L ;; Ok (session_with_warnings W s)) = Ok s) \/
    (exists m n, (s <- parse_sdp_vector L ;; Ok (session_with_warnings W s)) = Err (PSequence m n))).
  { destruct (parse_sdp_vector L) as [s|e|] eqn:K; cbn [bind]; eauto.
    - right. destruct (vector_err _ _ K) as [m [n ->]]. eauto.
    - apply vector_np in K. contradiction. }
  destruct b; auto. destruct W as [|w W]; auto. exfalso. inv F2.
  match goal with Q : comes_from _ _ _ w |- _ => apply comes_from_line in Q; destruct Q as [l' Q]; destruct (F _ _ _ Q) end. discriminate.
Qed.

(** ** C08: what an accepted text is made of *)
Lemma Reads_Scan : forall n ls ts ws, Reads n ls ts ws <-> exists L, Scan n ls L [] ws /\ map l_type L = ts.
Proof.
  intros n ls ts ws. split.
  - intros R. induction R.
    + exists []. split; [constructor|auto].
    + destruct IHR as [L [S <-]]. exists L. split; [constructor; auto|auto].
    + destruct IHR as [L [S <-]]. exists (l :: L). split; [apply Scan_ok; auto|auto].
    + destruct IHR as [L [S <-]]. exists L. split; [apply Scan_warn; auto|auto].
  - intros [L [S <-]]. remember [] as H eqn:HH. induction S; try discriminate; cbn [map].
    + constructor.
    + constructor; auto.
    + apply Reads_line; auto.
    + apply Reads_warning; auto.
Qed.
Lemma Assembles_warnings : forall l s w, Assembles l (with_warnings s w) <-> Assembles l s.
Proof. intros l s w. unfold Assembles. cbn. reflexivity. Qed.
Lemma structural_warnings : forall s w, structural (with_warnings s w) <-> structural s.
Proof. intros s w. split; intros [R1 R2 R3 R4]; constructor; auto. Qed.
Lemma document : forall sdp b s, parse_sdp sdp b = Ok s <->
  51 <= byte_len sdp /\ exists ts ws, Reads 0 (lines sdp) ts ws /\ s_warnings s = ws /\
    (b = true -> ws = []) /\ (4 <= List.length ts)%nat /\ Assembles ts s /\ structural s.
Proof.
  intros sdp b s. split.
  - intros H. destruct (parse_ok_scan _ _ _ H) as [B [L [W [S [Wb [HW [s0 [V ->]]]]]]]]. split; auto.
    apply assembly in V. destruct V as [V1 [V2 [V3 V4]]]. exists (map l_type L), W.
    split; [apply Reads_Scan; eauto|]. split; auto. split; auto. split; [rewrite map_length; auto|].
    change (session_with_warnings W s0) with (with_warnings s0 W). split.
    + apply Assembles_warnings; auto.
    + apply structural_warnings; auto.
  - intros [B [ts [ws [R [HW [Wb [L4 [A St]]]]]]]]. apply Reads_Scan in R. destruct R as [L [S <-]].
    rewrite (parse_scan _ _ _ _ _ B S).
    assert (V : parse_sdp_vector L = Ok (with_warnings s [])).
    { apply assembly. rewrite map_length in L4. split; auto. split; [apply Assembles_warnings; auto|].
      split; [apply structural_warnings; auto|reflexivity]. }
    assert (Q : finish b L [] ws = Ok (session_with_warnings ws (with_warnings s []))).
    { unfold finish. cbn [last_error rev hd_error]. rewrite V. cbn [bind].
      destruct b; auto. rewrite Wb by auto. auto. }
    rewrite Q. f_equal. destruct s; cbn in *. subst. auto.
Qed.

(** ** C05: results up to line numbers *)
Definition erase_line (l : sdp_line) : sdp_line := renumber 0 l.
Lemma erase_renumber : forall n e, erase (renumber_err n e) = erase e.
Proof. intros n []; auto. Qed.
Lemma erase_line_result : forall line n m,
  match parse_sdp_line line n, parse_sdp_line line m with
  | Ok a, Ok b => erase_line a = erase_line b
  | Err a, Err b => erase a = erase b /\ (is_unsupported a <-> is_unsupported b)
  | Panic, Panic => True
  | _, _ => False
  end.
Proof.
  intros line n m. rewrite (line_renumber line n m). destruct (parse_sdp_line line n) as [l|e|]; auto.
  rewrite erase_renumber. split; auto. unfold is_unsupported.
  destruct e; cbn; split; intros [? [? [? K]]]; try discriminate; eauto.
Qed.
Definition erase_scan (sc : scan) : scan :=
  {| sc_lines := map erase_line (sc_lines sc); sc_errors := map erase (sc_errors sc);
     sc_warnings := map erase (sc_warnings sc) |}.
Definition erase_scan_res (r : res perr scan) : res perr scan :=
  match r with Ok s => Ok (erase_scan s) | Err e => Err (erase e) | Panic => Panic end.
Lemma scan_erase : forall ls n m acc acc', erase_scan acc = erase_scan acc' ->
  erase_scan_res (scan_lines n acc ls) =
  erase_scan_res (scan_lines m acc' (filter (fun l => negb (blankb l)) ls)).
Proof.
  induction ls as [|x ls IH]; intros n m acc acc' H; cbn [scan_lines filter].
  - cbn. congruence.
  - unfold blankb at 1. destruct (is_empty (trim x)) eqn:B.
    + pose proof B as B'. apply blank_trim, blank_forallb in B'. rewrite B'. cbn [negb]. apply IH; auto.
    + assert (B' : forallb is_ws x = false).
      { destruct (forallb is_ws x) eqn:K; auto. apply blank_forallb, blank_trim in K. congruence. }
      rewrite B'. cbn [negb scan_lines]. rewrite B. pose proof (erase_line_result x n m) as Q.
      destruct (parse_sdp_line x n) as [l|e|] eqn:P1, (parse_sdp_line x m) as [l'|e'|] eqn:P2; try contradiction; auto.
      * apply IH. unfold erase_scan in *. cbn in *. inversion H. rewrite !map_app. cbn [map]. rewrite H1, Q. auto.
      * destruct Q as [Q1 Q2]. unfold erase_scan in *. inversion H.
        destruct (line_err _ _ _ P1) as [[y ->]|[y ->]], (line_err _ _ _ P2) as [[z ->]|[z ->]]; try discriminate;
          apply IH; cbn; rewrite !map_app; cbn [map]; congruence.
Qed.
Lemma session_vector_erase : forall L s,
  fst (parse_session_vector s (map erase_line L)) = fst (parse_session_vector s L) /\
  snd (parse_session_vector s (map erase_line L)) = 
    match snd (parse_session_vector s L) with Ok t => Ok t | Err e => Err (erase e) | Panic => Panic end.
Proof.
  induction L as [|x L IH]; intros s; cbn [map parse_session_vector]; auto.
  change (l_type (erase_line x)) with (l_type x). change (l_number (erase_line x)) with 0%nat.
  destruct (l_type x); auto. destruct (session_add_attribute a s) as [? []]; auto.
Qed.
Lemma media_loop_erase : forall L d m, media_loop d m (map erase_line L) =
  match media_loop d m L with Ok t => Ok t | Err e => Err (erase e) | Panic => Panic end.
Proof.
  induction L as [|x L IH]; intros d m; cbn [map media_loop]; auto.
  change (l_type (erase_line x)) with (l_type x). change (l_number (erase_line x)) with 0%nat.
  destruct (l_type x); auto.
  - destruct (media_line_attribute a m) as [? []]; auto.
  - destruct (m_connection m); auto.
Qed.
Lemma split_at_media_erase : forall L, split_at_media (map erase_line L) =
  (map erase_line (fst (split_at_media L)), map erase_line (snd (split_at_media L))).
Proof.
  induction L as [|x L IH]; cbn [map split_at_media]; auto.
  change (is_media_line (erase_line x)) with (is_media_line x). destruct (is_media_line x); auto.
  rewrite IH. destruct (split_at_media L); auto.
Qed.
Definition er {A} (r : res perr A) : res perr A :=
  match r with Ok t => Ok t | Err e => Err (erase e) | Panic => Panic end.
Lemma erase_idem : forall e, erase (erase e) = erase e.
Proof. intros []; auto. Qed.
Lemma vector_erase : forall L, er (parse_sdp_vector (map erase_line L)) = er (parse_sdp_vector L).
Proof.
  intros L. unfold parse_sdp_vector. rewrite map_length.
  destruct (Nat.ltb_spec (List.length L) 4); [auto|].
  destruct L as [|l0 l]; [cbn in *; lia|]. destruct l as [|l1 l]; [cbn in *; lia|]. destruct l as [|l2 l]; [cbn in *; lia|].
  cbn [map idx nth_error bind skipn]. change (l_type (erase_line l0)) with (l_type l0).
  destruct (l_type l0); auto.
  cbn [map idx nth_error bind skipn]. change (l_type (erase_line l1)) with (l_type l1).
  destruct (l_type l1); auto.
  cbn [map idx nth_error bind skipn]. change (l_type (erase_line l2)) with (l_type l2).
  destruct (l_type l2); auto. cbv zeta.
  rewrite split_at_media_erase. destruct (split_at_media l) as [hd tl]. cbn [fst snd].
  destruct (session_vector_erase hd (session_new v o s)) as [Q1 Q2].
  destruct (parse_session_vector (session_new v o s) hd) as [s1 r1], (parse_session_vector _ (map erase_line hd)) as [s2 r2].
  cbn [fst snd] in *. subst s2 r2.
  destruct r1; cbn [keep].
  - destruct tl as [|x tl]; cbn [map bind]; auto.
    cbn [parse_media_vector]. change (l_type (erase_line x)) with (l_type x).
    change (l_number (erase_line x)) with 0%nat. destruct (l_type x); auto.
    rewrite media_loop_erase. destruct (media_loop [] (media_new m) tl); auto. cbn [bind er]. rewrite erase_idem. auto.
  - destruct tl; cbn [map bind er]; rewrite erase_idem; auto.
  - destruct tl; auto.
Qed.
Lemma finish_erase : forall b L H W L' H' W', map erase_line L = map erase_line L' -> map erase H = map erase H' ->
  map erase W = map erase W' -> erase_result (finish b L H W) = erase_result (finish b L' H' W').
Proof.
  assert (LE : forall H, last_error (map erase H) = option_map erase (last_error H)).
  { intros H. unfold last_error. rewrite <- map_rev. destruct (rev H); auto. }
  assert (V : forall L W, erase_result (s <- parse_sdp_vector L ;; Ok (session_with_warnings W s)) =
    match er (parse_sdp_vector (map erase_line L)) with
    | Ok s => Ok (with_warnings s (map erase W)) | Err e => Err e | Panic => Panic end).
  { intros L W. rewrite vector_erase. destruct (parse_sdp_vector L); auto. }
  intros b L H W L' H' W' HL HH HW.
  assert (X : forall b, erase_result (finish b L H W) =
    match b, map erase W with
    | true, w :: _ => Err w
    | _, _ => match last_error (map erase H) with
              | Some e => Err e
              | None => match er (parse_sdp_vector (map erase_line L)) with
                        | Ok s => Ok (with_warnings s (map erase W)) | Err e => Err e | Panic => Panic end
              end end).
  { intros b0. unfold finish. rewrite LE, <- V. destruct b0, W; cbn [map]; auto; destruct (last_error H); auto. }
  rewrite X, HL, HH, HW, <- V, LE. unfold finish. destruct b, W'; cbn [map]; auto; destruct (last_error H'); auto.
Qed.

Lemma lines_doc : forall d, doc_ok d -> lines (doc_text d) = doc_lines d.
Proof.
  intros [ls last] [F NL]. unfold doc_text, doc_lines. cbn [d_lines d_last] in *.
  induction F as [|[x e] ls [H1 H2] F IH]; cbn [flat_map map app fst snd] in *.
  - destruct last as [|c l]; auto. rewrite lines_last; auto; [|discriminate]. apply contains_not_In. auto.
  - rewrite <- IH. rewrite <- app_assoc, <- app_assoc. destruct e; cbn [eol_text].
    + change ([10] ++ ?r) with (c_lf :: r). rewrite lines_lf by (apply contains_not_In; auto). f_equal.
      unfold strip_cr. destruct (rev x) as [|c r] eqn:K; auto. destruct (c =? c_cr) eqn:Kc; auto.
      exfalso. apply N.eqb_eq in Kc. subst c. apply (H2 (rev r)). rewrite <- (rev_involutive x), K. reflexivity.
    + apply lines_crlf. apply contains_not_In. auto.
Qed.
Lemma every_text_is_doc : forall sdp, exists d, doc_ok d /\ doc_text d = sdp.
Proof.
  assert (X : forall n sdp, (List.length sdp <= n)%nat -> exists d, doc_ok d /\ doc_text d = sdp).
  { induction n as [|n IH]; intros sdp L.
    - destruct sdp; [|cbn in L; lia]. exists {| d_lines := []; d_last := [] |}. split; [split; [constructor|intros []]|auto].
    - destruct (split_once c_lf sdp) as [[a b]|] eqn:K.
      + destruct (split_once_some _ _ _ _ K) as [-> Ha].
        destruct (IH b) as [d [D1 D2]]; [rewrite app_length in L; cbn in L; lia|]. destruct D1 as [D0 D1].
        destruct (rev a) as [|c r] eqn:R.
        * exists {| d_lines := (a, LF) :: d_lines d; d_last := d_last d |}. split.
          -- split; [|auto]. constructor; [|auto]. split; [apply contains_not_In; auto|]. cbn. intros x Hx.
             apply (f_equal (@rev N)) in Hx. rewrite R, rev_unit in Hx. discriminate.
          -- unfold doc_text in *. cbn [d_lines d_last flat_map fst snd eol_text]. rewrite <- D2, <- !app_assoc. reflexivity.
        * destruct (N.eq_dec c 13) as [->|Nc].
          -- assert (Hr : a = rev r ++ [13]) by (rewrite <- (rev_involutive a), R; reflexivity).
             exists {| d_lines := (rev r, CRLF) :: d_lines d; d_last := d_last d |}. split.
             ++ split; [|auto]. constructor; [|auto]. split; [|exact I]. cbn. intros Hi.
                apply contains_not_In in Ha. apply Ha. rewrite Hr. apply in_app_iff. auto.
             ++ unfold doc_text in *. cbn [d_lines d_last flat_map fst snd eol_text]. rewrite <- D2, Hr, <- !app_assoc. reflexivity.
          -- exists {| d_lines := (a, LF) :: d_lines d; d_last := d_last d |}. split.
             ++ split; [|auto]. constructor; [|auto]. split; [apply contains_not_In; auto|]. cbn. intros x Hx.
                apply (f_equal (@rev N)) in Hx. rewrite R, rev_unit in Hx. congruence.
             ++ unfold doc_text in *. cbn [d_lines d_last flat_map fst snd eol_text]. rewrite <- D2, <- !app_assoc. reflexivity.
      + apply split_once_none_inv in K. exists {| d_lines := []; d_last := sdp |}.
        split; [split; [constructor|apply contains_not_In; auto]|auto]. }
  intros sdp. apply (X (List.length sdp)). lia.
Qed.
Lemma lines_irrelevant : forall sdp1 sdp2 b, 51 <= byte_len sdp1 -> 51 <= byte_len sdp2 ->
  filter (fun l => negb (blankb l)) (lines sdp1) = filter (fun l => negb (blankb l)) (lines sdp2) ->
  erase_result (parse_sdp sdp1 b) = erase_result (parse_sdp sdp2 b).
Proof.
  intros sdp1 sdp2 b B1 B2 H.
  pose proof (scan_erase (lines sdp1) 0%nat 0%nat no_scan no_scan eq_refl) as S1.
  pose proof (scan_erase (lines sdp2) 0%nat 0%nat no_scan no_scan eq_refl) as S2.
  rewrite H, <- S2 in S1. clear S2 H.
  destruct (parse_cases sdp1 B1) as [[L1 [H1 [W1 C1]]]|P1], (parse_cases sdp2 B2) as [[L2 [H2 [W2 C2]]]|P2].
  - rewrite !(parse_scan _ _ _ _ _ B1 C1), !(parse_scan _ _ _ _ _ B2 C2).
    rewrite (scan_run _ _ _ _ C1) in S1.
    rewrite (scan_run _ _ _ _ C2) in S1.
    cbn in S1. unfold erase_scan in S1. cbn in S1. inversion S1. apply finish_erase; auto.
  - exfalso. rewrite (scan_run _ _ _ _ C1) in S1.
    destruct (scan_lines 0 no_scan (lines sdp2)) eqn:K; try discriminate.
    apply scan_scan in K. destruct K as [L2 [H2 [W2 [C2 _]]]]. specialize (P2 false).
    rewrite (parse_scan _ _ _ _ _ B2 C2) in P2. unfold finish in P2. destruct (last_error H2); [discriminate|].
    destruct (parse_sdp_vector L2) eqn:V; try discriminate. apply vector_np in V. contradiction.
  - exfalso. rewrite (scan_run _ _ _ _ C2) in S1.
    destruct (scan_lines 0 no_scan (lines sdp1)) eqn:K; try discriminate.
    apply scan_scan in K. destruct K as [L1 [H1 [W1 [C1 _]]]]. specialize (P1 false).
    rewrite (parse_scan _ _ _ _ _ B1 C1) in P1. unfold finish in P1. destruct (last_error H1); [discriminate|].
    destruct (parse_sdp_vector L1) eqn:V; try discriminate. apply vector_np in V. contradiction.
  - rewrite P1, P2. auto.
Qed.

End WithExt.

(** * Proofs: lossy values are not read back (C10, C12) *)
From Coq Require Import List NArith ZArith Lia Bool Ascii String.
From Coq Require Import ZifyBool ZifyNat ZifyN.
From Verif Require Import Str Num Net Types Ext Show Address AttrParse Media Session SpecApi SpecDoc SpecVal SpecItems SpecPrint.
From Verif Require Import StrLemmas NumLemmas NetLemmas PPanic PDoc PDoc2 PDoc3 PDoc4 PVal PVal2 PVal8 PVal9 PVal10 PVal11.
From Verif Require Import PPrint PPrint2 PPrint3 PPrint4 PPrint5 PPrint6 PPrint7 PPrint8 PPrint9 PPrint10.
From Verif Require PVal6 PVal7.
Import ListNotations.
Open Scope N_scope.
Open Scope list_scope.

(** ** Lengths of joined texts *)
Fixpoint total (l : list str) : nat := match l with [] => O | x :: l => (List.length x + total l)%nat end.
Lemma join_size : forall c l, l <> [] -> (List.length (join [c] l) + 1 = total l + List.length l)%nat.
Proof.
  intros c l. induction l as [|x l IH]; intro N; [congruence|]. destruct l as [|y l].
  - cbn. lia.
  - rewrite join_cons by discriminate. rewrite !app_length. specialize (IH ltac:(discriminate)).
    cbn [total List.length] in *. lia.
Qed.
Lemma total_filter : forall l, total (filter non_empty l) = total l.
Proof.
  induction l as [|x l IH]; [reflexivity|]. cbn [filter]. destruct x as [|c x]; cbn in *; [exact IH|]. lia.
Qed.
Lemma filter_shorter : forall l, (List.length (filter non_empty l) <= List.length l)%nat /\
  (In [] l -> (List.length (filter non_empty l) < List.length l)%nat).
Proof.
  induction l as [|x l [I1 I2]]; [split; [reflexivity | intros []]|]. cbn [filter]. destruct x as [|c x]; cbn [non_empty is_empty negb List.length].
  - split; [lia|]. intros _. lia.
  - split; [lia|]. intros [K|K]; [discriminate | specialize (I2 K); lia].
Qed.
Lemma join_filter : forall c l, join [c] (filter non_empty l) <> [] ->
  (List.length (join [c] (filter non_empty l)) <= List.length (join [c] l))%nat /\
  (In [] l -> (List.length (join [c] (filter non_empty l)) < List.length (join [c] l))%nat).
Proof.
  intros c l N.
  assert (Nf : filter non_empty l <> []) by (intro K; rewrite K in N; apply N; reflexivity).
  assert (Nl : l <> []) by (intro K; subst l; apply Nf; reflexivity).
  pose proof (join_size c _ Nf) as J1. pose proof (join_size c _ Nl) as J2. rewrite total_filter in J1.
  destruct (filter_shorter l) as [F1 F2]. split; [lia|]. intro K. specialize (F2 K). lia.
Qed.

Lemma in_join : forall c sep t l, In t l -> In c t -> In c (join sep l).
Proof.
  intros c sep t l. induction l as [|x l IH]; intros I C; [destruct I|]. destruct l as [|y l].
  - destruct I as [->|[]]. exact C.
  - rewrite join_cons by discriminate. destruct I as [->|I]; [apply in_or_app; left; exact C|].
    apply in_or_app. right. apply in_or_app. right. exact (IH I C).
Qed.

Section WithExt.
Context {E : Ext}.
Context (X : ext_ok E).

(** ** From a printed line to the printed value *)
Lemma trim_end_core : forall s t, core (trim_end s) t <-> core s t.
Proof.
  intros s t. rewrite !core_trim. destruct (trim_end_suffix s) as (w & Hs & B).
  rewrite Hs at 2. change (trim (trim_end s ++ w)) with (trim ([] ++ trim_end s ++ w)).
  rewrite trim_pad; [reflexivity | reflexivity | exact B].
Qed.
Lemma trim_end_words : forall s l, words (trim_end s) l <-> words s l.
Proof.
  intros s l. rewrite !words_sws. destruct (trim_end_suffix s) as (w & Hs & B).
  rewrite Hs at 2. rewrite sws_app_ws_end by exact B. reflexivity.
Qed.
Lemma value_of_printed : forall a t s, ~ flag_attribute a -> show_attr a = attr_to_string t s ->
  show_attr_type t = of_string (sdp_name a) ->
  line_means (printed_line (TyAttribute a)) (TyAttribute a) -> s <> [] /\ attr_value (trim_end s) a.
Proof.
  intros a t s F T Ty M. unfold printed_line, line_letter, item_text in M.
  apply means_plain in M; [|reflexivity|discriminate]. destruct M as [_ (u & C & V)]. cbn [type_value] in *.
  rewrite T in C. unfold attr_to_string in C. destruct (name_word a) as (N1 & N2 & _).
  destruct s as [|c s].
  - exfalso. cbn [is_empty] in C. apply core_nil in C. subst u. destruct V as [(_ & M & _)|(n & r & K & _)].
    + apply means_iff in M; [|destruct a; reflexivity]. cbn in M. destruct N1 as [N1 _]. congruence.
    + exact (cut_nil _ _ _ K).
  - split; [discriminate|]. cbn [is_empty] in C. rewrite Ty in C. unfold c_colon in C. cbn [app] in C.
    apply core_trim in C.
    assert (S : starts_ok (of_string (sdp_name a) ++ [58])) by (apply starts_ok_app, word_starts, N1).
    rewrite (trim_mid _ _ _ S eq_refl) in C. subst u.
    destruct V as [(K & _)|(n & r & K & _ & V)].
    + exfalso. apply K, in_or_app. right. left. reflexivity.
    + destruct (cut_fun _ _ _ _ _ _ K (conj eq_refl N2)) as [-> ->]. exact V.
Qed.

(** ** msid-semantic *)
Lemma msid_semantic_lost : forall m, attr_wf (AMsidSemantic m) -> ms_msids m = [] ->
  ~ attr_value (trim_end (show_msid_semantic m)) (AMsidSemantic m).
Proof.
  intros m [W _] N V. cbn [attr_value] in V. unfold msid_semantic_value in V. apply (proj1 (trim_end_words _ _)) in V.
  unfold show_msid_semantic in V. rewrite N in V. apply words_sws in V. rewrite sws_cons_sp in V by (apply word_token, W).
  injection V as V. vm_compute in V. discriminate V.
Qed.

(** ** simulcast *)
Lemma version_read : forall t v, simulcast_version_value t v -> t = show_simulcast_version v.
Proof.
  intros t v (alts & F & A). destruct (fields_join_inv _ _ _ F) as [-> _]. unfold show_simulcast_version. f_equal.
  clear F. induction A as [|x i l v H A IH]; [reflexivity|]. cbn [map]. f_equal; [|exact IH].
  unfold simulcast_id_value, show_simulcast_id in *. destruct (sid_paused i); [exact H | exact (proj1 H)].
Qed.
Definition printed_versions (l : list simulcast_version) : str :=
  join [59] (filter non_empty (map show_simulcast_version l)).
Lemma list_read : forall l, printed_versions l <> [] -> simulcast_list_value (printed_versions l) l ->
  ~ Exists version_lossy l.
Proof.
  intros l N (body & vs & C & F & V) L. unfold printed_versions in *.
  assert (Ev : vs = map show_simulcast_version l).
  { clear - V. induction V as [|t v ts l' H V IH]; [reflexivity|]. cbn [map]. f_equal; [apply version_read, H | exact IH]. }
  destruct (fields_join_inv _ _ _ F) as [Eb _]. subst vs. destruct (join_filter _ _ N) as [J1 J2]. rewrite <- Eb in J1, J2.
  destruct C as [[C _]|[C Ec]].
  - rewrite C in J1. rewrite app_length in J1. cbn [List.length] in J1. lia.
  - rewrite <- Ec in *. apply Exists_exists in L. destruct L as (v & Iv & [Lv|Lv]).
    + assert (K : (List.length body < List.length body)%nat); [|lia]. apply J2. apply in_map_iff. exists v. split; [subst v; reflexivity | exact Iv].
    + apply C. rewrite Eb. clear - Iv Lv. apply Exists_exists in Lv. destruct Lv as (i & Ii & I61).
      assert (In61 : In 61 (show_simulcast_version v)).
      { unfold show_simulcast_version. assert (K : In (show_simulcast_id i) (map show_simulcast_id v)) by (apply in_map, Ii).
        revert K. generalize (map show_simulcast_id v). intros ts K. apply (in_join _ _ _ _ K).
        unfold show_simulcast_id. apply in_or_app. right. exact I61. }
      apply (in_join _ _ (show_simulcast_version v)); [apply in_map, Iv | exact In61].
Qed.
Lemma versions_word : forall l, Forall (fun v => v <> [] /\ Forall simulcast_id_wf v) l ->
  printed_versions l <> [] -> word (printed_versions l).
Proof.
  intros l F N. split; [exact N|]. unfold printed_versions. apply join_no_blank; [repeat constructor|].
  apply Forall_forall. intros t Ht. apply filter_In in Ht. destruct Ht as [Ht _]. apply in_map_iff in Ht.
  destruct Ht as (v & <- & Iv). destruct (Forall_in _ _ _ F Iv) as [_ Fv]. apply join_no_blank; [repeat constructor|].
  apply Forall_map_in. intros i Ii. apply id_text, (Forall_in _ _ _ Fv Ii).
Qed.
Lemma side_words : forall d l rest, word d -> Forall (fun v => v <> [] /\ Forall simulcast_id_wf v) l -> l <> [] ->
  (rest = [] \/ exists r, rest = 32 :: r) ->
  split_whitespace (show_vec (d ++ [32]) [] [c_semi] show_simulcast_version l ++ rest) =
  d :: (if is_empty (printed_versions l) then [] else [printed_versions l]) ++ split_whitespace rest.
Proof.
  intros d l rest D F N R. unfold show_vec. destruct l as [|v l]; [congruence|]. fold (printed_versions (v :: l)).
  rewrite app_nil_r, <- !app_assoc. cbn [app]. rewrite sws_cons by (first [apply word_token, D | reflexivity]). f_equal.
  fold c_semi. change (join [c_semi] (filter non_empty (map show_simulcast_version (v :: l)))) with (printed_versions (v :: l)).
  destruct (printed_versions (v :: l)) as [|c x] eqn:K.
  - reflexivity.
  - rewrite <- K in *. rewrite (proj2 (is_empty_false _)) by (rewrite K; discriminate).
    assert (W : word (printed_versions (v :: l))) by (apply versions_word; [exact F | rewrite K; discriminate]).
    destruct R as [->|(r & ->)].
    + rewrite app_nil_r. rewrite sws_one by (apply word_token, W). reflexivity.
    + rewrite sws_cons by (first [apply word_token, W | reflexivity]). rewrite sws_ws by reflexivity. reflexivity.
Qed.
Lemma list_not_recv : forall l, printed_versions l = [] -> ~ simulcast_list_value (lit "recv") l.
Proof.
  intros l P (body & vs & C & Fb & V).
  assert (Ev : vs = map show_simulcast_version l).
  { clear - V. induction V as [|x v ts l' H V IH]; [reflexivity|]. cbn [map]. f_equal; [apply version_read, H | exact IH]. }
  destruct C as [[C _]|[_ ->]]; [discriminate C|]. apply fields_split in Fb. vm_compute in Fb. rewrite Ev in Fb.
  unfold printed_versions in P. rewrite <- Fb in P. discriminate P.
Qed.
Lemma lossy_list : forall s, simulcast_lossy s -> Exists version_lossy (sim_send s) \/ Exists version_lossy (sim_receive s).
Proof. intros s L. apply Exists_app in L. exact L. Qed.
Lemma simulcast_lost : forall s, attr_wf (ASimulcast s) -> simulcast_lossy s ->
  ~ attr_value (trim_end (show_simulcast s)) (ASimulcast s).
Proof.
  intros s [W N] L V. apply Forall_app in W. destruct W as [W1 W2]. apply lossy_list in L.
  assert (Wd : word (lit "send") /\ word (lit "recv")) by (split; (split; [discriminate | repeat constructor])).
  destruct Wd as [Ws Wr]. cbn [attr_value] in V.
  destruct V as (d & first & more & Hw & dir & l1 & l2 & D & V1 & V2 & Q). apply (proj1 (trim_end_words _ _)) in Hw. apply words_sws in Hw.
  unfold show_simulcast in Hw.
  pose proof (fun rest K => side_words (lit "send") (sim_send s) rest Ws W1 K) as S1.
  pose proof (fun rest K => side_words (lit "recv") (sim_receive s) rest Wr W2 K) as S2.
  change (lit "send" ++ [32]) with (lit "send ") in S1. change (lit "recv" ++ [32]) with (lit "recv ") in S2.
  set (A := show_vec (lit "send ") [] [c_semi] show_simulcast_version (sim_send s)) in *.
  set (B := show_vec (lit "recv ") [] [c_semi] show_simulcast_version (sim_receive s)) in *.
  assert (NA : sim_send s <> [] -> non_empty A = true) by (intro K; subst A; unfold show_vec; destruct (sim_send s); [congruence | reflexivity]).
  assert (NB : sim_receive s <> [] -> non_empty B = true) by (intro K; subst B; unfold show_vec; destruct (sim_receive s); [congruence | reflexivity]).
  destruct (sim_send s) as [|v1 r1] eqn:E1.
  - (* only recv *)
    assert (N2 : sim_receive s <> []) by exact N. assert (KA : A = []) by reflexivity. rewrite KA in Hw.
    unfold non_empty_vec in Hw. cbn [filter] in Hw. rewrite (NB N2) in Hw. cbn [non_empty is_empty negb filter join] in Hw.
    rewrite <- (app_nil_r B), (S2 [] N2 (or_introl eq_refl)) in Hw.
    destruct (is_empty (printed_versions (sim_receive s))) eqn:P; [discriminate Hw|].
    apply is_empty_false in P. rewrite sws_nil, app_nil_r in Hw. injection Hw as <- <- <-.
    destruct dir; [discriminate D|]. destruct Q as [_ Q]. rewrite <- Q in V1.
    apply (list_read _ P V1). destruct L as [L|L]; [inversion L | exact L].
  - rewrite <- E1 in *. assert (N1 : sim_send s <> []) by (rewrite E1; discriminate). specialize (NA N1).
    destruct (sim_receive s) as [|v2 r2] eqn:E2.
    + assert (KB : B = []) by reflexivity. rewrite KB in Hw. unfold non_empty_vec in Hw. cbn [filter] in Hw. rewrite NA in Hw.
      cbn [non_empty is_empty negb filter join] in Hw.
      rewrite <- (app_nil_r A), (S1 [] N1 (or_introl eq_refl)) in Hw.
      destruct (is_empty (printed_versions (sim_send s))) eqn:P; [discriminate Hw|].
      apply is_empty_false in P. rewrite sws_nil, app_nil_r in Hw. injection Hw as <- <- <-.
      destruct dir; [|discriminate D]. destruct Q as [Q _]. rewrite <- Q in V1.
      apply (list_read _ P V1). destruct L as [L|L]; [exact L | inversion L].
    + rewrite <- E2 in *. assert (N2 : sim_receive s <> []) by (rewrite E2; discriminate). specialize (NB N2).
      unfold non_empty_vec in Hw. cbn [filter] in Hw. rewrite NA, NB in Hw. cbn [join] in Hw.
      change (A ++ sp ++ B) with (A ++ 32 :: B) in Hw.
      rewrite (S1 (32 :: B) N1 (or_intror (ex_intro _ B eq_refl))) in Hw. rewrite sws_ws in Hw by reflexivity.
      rewrite <- (app_nil_r B), (S2 [] N2 (or_introl eq_refl)), sws_nil, app_nil_r in Hw.
      destruct (is_empty (printed_versions (sim_send s))) eqn:P1.
      * cbn [app] in Hw. injection Hw as <- <- <-. destruct dir; [|discriminate D]. destruct Q as [Q _]. rewrite <- Q in V1.
        apply is_empty_true in P1. exact (list_not_recv _ P1 V1).
      * cbn [app] in Hw. injection Hw as <- <- <-. destruct dir; [|discriminate D]. destruct Q as [Q1 Q2]. rewrite <- Q1 in V1.
        rewrite <- Q2 in V2. destruct (is_empty (printed_versions (sim_receive s))) eqn:P2; [exact V2|]. destruct V2 as [_ V2].
        apply is_empty_false in P1, P2. destruct L as [L|L]; [exact (list_read _ P1 V1 L) | exact (list_read _ P2 V2 L)].
Qed.

(** ** Blanks at the end *)
Lemma trim_end_blank : forall t, ends_blank t -> trim_end t <> t.
Proof.
  intros t (c & x & -> & B) H. destruct (trim_end_cases (x ++ [c])) as [K|(y & d & K & D)]; rewrite H in K.
  - destruct x; discriminate K.
  - apply app_inj_tail in K. destruct K as [_ <-]. congruence.
Qed.
Lemma trim_end_not_blank : forall t, ~ ends_blank (trim_end t).
Proof.
  intros t (c & x & H & B). destruct (trim_end_cases t) as [K|(y & d & K & D)]; rewrite K in H.
  - destruct x; discriminate H.
  - apply app_inj_tail in H. destruct H as [_ <-]. congruence.
Qed.
Lemma trim_end_app : forall a b, trim_end b <> [] -> trim_end (a ++ b) = a ++ trim_end b.
Proof.
  intros a b N. destruct (trim_end_suffix b) as (w & Hb & B). rewrite Hb at 1. rewrite app_assoc, trim_end_ws_app by exact B.
  apply trim_end_id, ends_ok_app. destruct (trim_end_cases b) as [K|K]; [contradiction | exact K].
Qed.
Lemma trim_end_join : forall sep l u, trim_end u <> [] -> trim_end (join sep (l ++ [u])) = join sep (l ++ [trim_end u]).
Proof.
  intros sep l u N. induction l as [|x l IH]; [reflexivity|]. cbn [app].
  rewrite !join_cons by (destruct l; discriminate). rewrite <- IH. rewrite app_assoc, trim_end_app; [rewrite app_assoc; reflexivity|].
  rewrite IH. intro K. destruct l as [|y l]; [exact (N K)|]. cbn [app] in K. rewrite join_cons in K by (destruct l; discriminate).
  revert K. clear - N. revert y. induction l as [|z l IH]; intros y K.
  - cbn [app join] in K. destruct y; [|discriminate K]. destruct sep; [|discriminate K]. exact (N K).
  - cbn [app] in K. rewrite join_cons in K by (destruct l; discriminate). destruct y; [|discriminate K].
    destruct sep as [|]; [|discriminate K]. exact (IH z K).
Qed.

(** ** fmtp *)
Lemma fmtp_fun : forall v x y, fmtp_value v x -> fmtp_value v y -> x = y.
Proof.
  intros v x y Hx Hy.
  assert (Kx := proj2 (PVal6.fmtp_iff v (AFmtp x)) (ex_intro _ x (conj eq_refl Hx))).
  assert (Ky := proj2 (PVal6.fmtp_iff v (AFmtp y)) (ex_intro _ y (conj eq_refl Hy))). congruence.
Qed.
Lemma fmtp_value_end : forall v w x, trim_end v = trim_end w -> fmtp_value v x -> fmtp_value w x.
Proof.
  intros v w x Q (t & pt & block & C & R). exists t, pt, block. split; [|exact R].
  apply trim_end_core. rewrite <- Q. apply trim_end_core. exact C.
Qed.
(** Another list of parameters with the same text. *)
Definition merged (p : fmtp_params) : fmtp_params :=
  set_unknown_tokens [trim_end (join [44] (unknown_tokens p))] p.
Lemma merged_token : forall known l, l <> [] -> Forall (SpecPrint.unknown_token known) l ->
  SpecPrint.unknown_token known (trim_end (join [44] l)) /\ trim_end (join [44] l) <> [].
Proof.
  intros known l N F. destruct l as [|t l]; [congruence|]. inversion F as [|? ? (S & n & v & [-> C] & U) F2]; subst.
  assert (J : exists v', join [44] ((n ++ 61 :: v) :: l) = n ++ 61 :: v' /\ ~ In 59 (join [44] ((n ++ 61 :: v) :: l))).
  { destruct l as [|u l].
    - exists v. split; [reflexivity | exact S].
    - exists (v ++ [44] ++ join [44] (u :: l)). split; [rewrite join_cons by discriminate; rewrite <- app_assoc; reflexivity|].
      apply join_no; [intros [K|[]]; discriminate K|]. eapply Forall_impl; [|exact F]. intros a Ha. exact (proj1 Ha). }
  destruct J as (v' & J & S'). rewrite J in *. split; [|rewrite trim_end_mid by reflexivity; destruct n; discriminate].
  split.
  - intro I. apply S'. destruct (trim_end_suffix (n ++ 61 :: v')) as (w & K & _). rewrite K. apply in_or_app. left. exact I.
  - rewrite trim_end_mid by reflexivity. exists n, (trim_end v'). split; [split; [reflexivity | exact C] | exact U].
Qed.
Lemma merged_text : forall p, rtx p = None -> dtmf_tones p = [] -> encodings p = [] -> unknown_tokens p <> [] ->
  Forall (SpecPrint.unknown_token (fun n => Exists (means_upper n) fmtp_names)) (unknown_tokens p) ->
  trim_end (show_fmtp_params p) = show_fmtp_params (merged p).
Proof.
  intros p R D En N U. set (q := set_unknown_tokens [join [44] (unknown_tokens p)] p).
  destruct (merged_token _ _ N U) as [_ M].
  assert (M1 : join [44] (unknown_tokens p) <> []) by (intro K; rewrite K in M; apply M; reflexivity).
  assert (Q : show_fmtp_params p = show_fmtp_params q).
  { unfold show_fmtp_params. change (rtx q) with (rtx p). change (dtmf_tones q) with (dtmf_tones p).
    change (encodings q) with (encodings p). rewrite R, D, En. cbn [non_empty is_empty negb].
    apply (f_equal (fun l => join [c_semi] (non_empty_vec l))).
    unfold fmtp_param_list. repeat (apply f_equal2; [reflexivity|]). apply f_equal2; [|reflexivity].
    subst q. unfold show_vec. cbn [unknown_tokens set_unknown_tokens map]. rewrite map_id.
    assert (U' : Forall (fun t : str => t <> []) (unknown_tokens p)).
    { eapply Forall_impl; [|exact U]. intros t (_ & n & v & [-> _] & _). destruct n; discriminate. }
    destruct (unknown_tokens p) as [|x l] eqn:K; [congruence|]. unfold non_empty_vec. rewrite filter_nonempty_id by exact U'.
    rewrite filter_nonempty_id by (constructor; [exact M1 | constructor]). reflexivity. }
  rewrite Q, (fmtp_text q), (fmtp_text (merged p)); try assumption.
  - subst q. unfold merged. cbn [unknown_tokens set_unknown_tokens].
    change (fmtp_segs (set_unknown_tokens [join [44] (unknown_tokens p)] p)) with (fmtp_segs p).
    change (fmtp_segs (set_unknown_tokens [trim_end (join [44] (unknown_tokens p))] p)) with (fmtp_segs p).
    apply trim_end_join, M.
  - apply le_n.
  - constructor; [exact M | constructor].
  - apply le_n.
  - constructor; [exact M1 | constructor].
Qed.
Lemma fmtp_lost : forall f, attr_range (AFmtp f) -> attr_wf (AFmtp f) -> fmtp_lossy (fmtp_parameters f) ->
  show_fmtp f <> [] -> ~ attr_value (trim_end (show_fmtp f)) (AFmtp f).
Proof.
  intros f R W L Ne V. cbn [attr_value] in V. apply (fmtp_value_end _ (show_fmtp f)) in V.
  2:{ destruct (trim_end_cases (show_fmtp f)) as [K|K]; [rewrite K; reflexivity | apply trim_end_id, K]. }
  set (p := fmtp_parameters f) in *.
  assert (Other : forall q, fmtp_range q -> fmtp_wf q -> ~ fmtp_lossy q ->
            trim_end (show_fmtp_params p) = show_fmtp_params q -> show_fmtp_params p <> [] -> p = q).
  { intros q Rq Wq Lq T Np. set (g := {| fmtp_payload_type := fmtp_payload_type f; fmtp_parameters := q |}).
    destruct (fmtp_prints g (conj (proj1 R) Rq) Wq Lq) as (_ & Sg & Vg). cbn [attr_value] in Vg.
    assert (Q : f = g); [|exact (f_equal fmtp_parameters Q)].
    apply (fmtp_fun (show_fmtp f)); [exact V|]. apply (fmtp_value_end (show_fmtp g)); [|exact Vg].
    unfold show_fmtp. cbn [fmtp_parameters fmtp_payload_type g]. fold p.
    destruct (show_fmtp_params q) as [|c t] eqn:Kq.
    { exfalso. apply (ends_nonempty _ Sg). unfold show_fmtp. cbn [g fmtp_parameters]. rewrite Kq. reflexivity. }
    rewrite (proj2 (is_empty_false _) Np). cbn [is_empty].
    assert (Nt : trim_end (show_fmtp_params p) <> []) by (rewrite T; discriminate).
    rewrite <- T. rewrite !app_assoc. rewrite (trim_end_app _ (show_fmtp_params p) Nt).
    apply trim_end_id, ends_ok_app. destruct (trim_end_cases (show_fmtp_params p)) as [K|K]; [contradiction | exact K]. }
  assert (Np : show_fmtp_params p <> []).
  { intro K. apply Ne. unfold show_fmtp. fold p. rewrite K. reflexivity. }
  destruct (rtx p) as [r|] eqn:Kr.
  - destruct (fmtp_params_dec p (set_rtx (Some r) fmtp_defaults)) as [Ed|Ed].
    + rewrite Ed in L. destruct L as [L|[(r' & L1 & L2)|[L|L]]].
      * discriminate L.
      * injection L1 as <-. apply L2. reflexivity.
      * cbn in L. lia.
      * inversion L.
    + apply Ed. apply Other.
      * destruct R as [_ R]. fold p in R.
        destruct R as (_ & _ & _ & _ & _ & _ & _ & _ & _ & _ & _ & _ & _ & _ & _ & _ & _ & Rr). rewrite Kr in Rr.
        unfold fmtp_range. do 16 (split; [vm_compute; first [exact I | discriminate]|]). split; [constructor | exact Rr].
      * left. split; [reflexivity|]. split; [reflexivity | constructor].
      * intros [L'|[(r' & L1 & L2)|[L'|L']]]; [discriminate L' | | cbn in L'; lia | inversion L'].
        injection L1 as <-. apply L2. reflexivity.
      * assert (T : show_fmtp_params p = show_fmtp_params (set_rtx (Some r) fmtp_defaults)) by (unfold show_fmtp_params; rewrite Kr; reflexivity).
        rewrite T. apply trim_end_id. destruct R as [_ R]. fold p in R.
        destruct R as (_ & _ & _ & _ & _ & _ & _ & _ & _ & _ & _ & _ & _ & _ & _ & _ & _ & Rr). rewrite Kr in Rr.
        destruct (rtx_prints r (proj1 Rr) (proj2 Rr)) as [(c & x & K1 & K2) _]. exists x, c. split; [exact K1 | exact K2].
      * exact Np.
  - assert (Nu : unknown_tokens p <> []).
    { destruct L as [L|[(r & L1 & _)|[L|L]]].
      - exfalso. apply Np. rewrite L. vm_compute. reflexivity.
      - congruence.
      - destruct (unknown_tokens p); [cbn in L; lia | discriminate].
      - destruct (unknown_tokens p); [inversion L | discriminate]. }
    destruct W as [(W1 & W2 & W3)|[[W1 W2]|[W1 W2]]]; fold p in W1, W2; [|elim Nu; rewrite W2; reflexivity | elim Nu; rewrite W2; reflexivity].
    fold p in W3. destruct (merged_token _ _ Nu W3) as [M1 M2].
    assert (Q : p = merged p).
    { apply Other.
      - exact (proj2 R).
      - left. split; [exact W1|]. split; [exact W2|]. constructor; [exact M1 | constructor].
      - intros [L'|[(r' & L1 & L2)|[L'|L']]].
        + apply (f_equal unknown_tokens) in L'. discriminate L'.
        + change (rtx (merged p)) with (rtx p) in L1. congruence.
        + cbn in L'. lia.
        + inversion L' as [? ? B|? ? B]; [exact (trim_end_not_blank _ B) | inversion B].
      - apply merged_text; assumption.
      - exact Np. }
    apply (f_equal unknown_tokens) in Q. cbn [unknown_tokens merged set_unknown_tokens] in Q. unfold merged in Q.
    cbn [unknown_tokens set_unknown_tokens] in Q.
    destruct L as [L|[(r & L1 & _)|[L|L]]].
    + apply Np. rewrite L. vm_compute. reflexivity.
    + congruence.
    + rewrite Q in L. cbn in L. lia.
    + destruct (unknown_tokens p) as [|u [|u' l]] eqn:Ku; [congruence | | discriminate Q].
      injection Q as Q. inversion L as [? ? B|? ? B]; [exact (trim_end_blank _ B (eq_sym Q)) | inversion B].
Qed.

(** ** rid *)
Lemma given_fun : forall is ps a b, given is ps a -> given is ps b -> a = b.
Proof.
  intros is ps a b G. revert b. induction G as [|n v ps vs H G IH|n v ps vs H G IH]; intros b K; inversion K; subst;
    [reflexivity | f_equal; apply IH; assumption | contradiction | contradiction | apply IH; assumption].
Qed.
Lemma others_fun : forall known ps a b, others known ps a -> others known ps b -> a = b.
Proof.
  intros known ps a b G. revert b. induction G as [|n v ps us H G IH|n v ps us H G IH]; intros b K; inversion K; subst;
    [reflexivity | f_equal; apply IH; assumption | contradiction | contradiction | apply IH; assumption].
Qed.
Lemma cuts_fun : forall l a b, Forall2 (fun t nv => cut 61 t (fst nv) (snd nv)) l a ->
  Forall2 (fun t nv => cut 61 t (fst nv) (snd nv)) l b -> a = b.
Proof.
  intros l a b F. revert b. induction F as [|t [n v] l a H F IH]; intros b K; inversion K as [|? [n' v'] ? b' H' K']; subst; [reflexivity|].
  cbn [fst snd] in *. destruct (cut_fun _ _ _ _ _ _ H H') as [<- <-]. f_equal. apply IH, K'.
Qed.
Lemma trim_end_cut : forall c t n v, is_ws c = false -> cut c t n v -> cut c (trim_end t) n (trim_end v).
Proof. intros c t n v B [-> N]. split; [apply trim_end_mid, B | exact N]. Qed.
Lemma cut_trim_nonempty : forall t n v, cut 61 t n v -> trim_end t <> [].
Proof. intros t n v C. apply trim_end_cut in C; [|reflexivity]. destruct C as [-> _]. destruct n; discriminate. Qed.
Lemma trim_end_no : forall c t, ~ In c t -> ~ In c (trim_end t).
Proof.
  intros c t H I. apply H. destruct (trim_end_suffix t) as (w & K & _). rewrite K. apply in_or_app. left. exact I.
Qed.
Lemma rid_tokens_no : forall r, attr_wf (ARid r) -> Forall (fun t => ~ In 59 t) (rid_tokens r).
Proof.
  intros r (W1 & W2 & W3 & W4). destruct (unknown_pairs _ _ W3) as (us & Eu & U1 & U2 & U3).
  unfold rid_tokens. apply Forall_app; split; [|apply Forall_app; split; [|apply Forall_app; split]].
  - unfold pt_tokens. destruct (rid_formats r) as [|x l]; [constructor|]. constructor; [|constructor].
    intro K. apply in_app_or in K. destruct K as [K|K].
    + revert K. apply not_in_b. reflexivity.
    + revert K. apply join_no; [intros [K|[]]; discriminate|]. apply Forall_forall. intros t Ht.
      apply in_map_iff in Ht. destruct Ht as (y & <- & _). apply not_in_N. reflexivity.
  - apply seg_tok_no; [discriminate|]. unfold rid_segs.
    repeat (constructor; [cbn [fst snd]; split; [apply not_in_b; reflexivity | apply num_opt_wf, not_in_N; reflexivity]|]). constructor.
  - exact U3.
  - apply seg_tok_no; [discriminate|]. unfold depends_seg. constructor; [|constructor]. cbn [fst snd].
    split; [apply not_in_b; reflexivity|]. destruct (rid_depends r) as [|x l] eqn:K; [exact I|]. cbn [option_wf].
    unfold depends_text. apply join_no; [intros [Q|[]]; discriminate|]. apply Forall_forall. intros t Ht.
    apply filter_In in Ht. exact (proj2 (Forall_in _ _ _ W4 (proj1 Ht))).
Qed.
(** What a printed rid is read as. *)
Lemma rid_read_all : forall r q init u, attr_wf (ARid r) -> rid_tokens r = init ++ [u] -> trim_end u <> [] ->
  attr_value (trim_end (show_rid r)) (ARid q) ->
  let ps := init ++ [trim_end u] in
  rid_id q = rid_id r /\ rid_direction q = rid_direction r /\
  ((exists pts fs rest, ps = (lit "pt=" ++ pts) :: rest /\ fields 44 pts fs /\
            Forall2 (fun f n => exists x, core f x /\ numeral u16_max x n) fs (rid_formats q) /\
            rid_params_value rest (rid_params_of q) (rid_depends q)) \/
         ((forall x rest, ps <> (lit "pt=" ++ x) :: rest) /\ rid_formats q = [] /\
            rid_params_value ps (rid_params_of q) (rid_depends q))).
Proof.
  intros r q init u W T Nu V ps. pose proof (rid_tokens_no r W) as Tn. rewrite T in Tn.
  destruct W as (W1 & W2 & W3 & W4). destruct (unknown_pairs _ _ W3) as (us & Eu & U1 & U2 & U3).
  assert (Un : Forall (fun t : str => t <> []) (rid_unknown (rid_params_of r))) by (rewrite Eu; apply tok_nonempty).
  destruct V as (t & dir & more & C & P & Wd & M).
  assert (J : trim_end (join [59] (init ++ [u])) = join [59] ps) by (apply trim_end_join, Nu).
  assert (Nj : trim_end (join [59] (init ++ [u])) <> []).
  { rewrite J. intro K. destruct (trim_end_cases u) as [K'|K']; [contradiction|].
    assert (Es : ends_solid (join [59] ps)); [|rewrite K in Es; exact (ends_nonempty _ Es eq_refl)].
    apply ends_join_last. destruct K' as (x & c & K1 & K2). exists c, x. split; assumption. }
  assert (X' : trim_end (show_rid r) = rid_id r ++ leads 32 [show_single_direction (rid_direction r); join [59] ps]).
  { rewrite (rid_text r Un), T. destruct (init ++ [u]) as [|a b] eqn:K; [destruct init; discriminate K|].
    rewrite <- J. unfold leads. cbn [flat_map]. rewrite !app_nil_r.
    set (d := show_single_direction (rid_direction r)).
    set (j := join [59] (a :: b)) in *. change (rid_id r ++ (32 :: d) ++ 32 :: j) with (rid_id r ++ (32 :: d) ++ ([32] ++ j)).
    rewrite (app_assoc (32 :: d)), app_assoc. rewrite (trim_end_app _ j Nj). rewrite <- !app_assoc. reflexivity. }
  assert (Ct : core (trim_end (show_rid r)) (trim_end (show_rid r))).
  { apply core_self.
    - rewrite X'. apply starts_app, W2.
    - rewrite X'. apply ends_app. unfold leads. cbn [flat_map]. rewrite app_nil_r. apply ends_cons, ends_app, ends_cons.
      apply ends_join_last. destruct (trim_end_cases u) as [K'|(x & c & K1 & K2)]; [contradiction|]. exists c, x. split; assumption. }
  apply core_trim in C, Ct. assert (Q : t = trim_end (show_rid r)) by congruence. rewrite Q, X' in P.
  assert (P' : space_parts 3 (rid_id r ++ leads 32 [show_single_direction (rid_direction r); join [59] ps])
                 [rid_id r; show_single_direction (rid_direction r); join [59] ps]).
  { apply parts_more; [exact W1|]. apply parts_more; [destruct (rid_direction r); apply not_in_b; reflexivity|]. apply parts_last. }
  apply parts_splitn in P, P'. destruct P as [_ P], P' as [_ P'].
  assert (Q2 : more = [join [59] ps]) by congruence. rewrite Q2 in M. destruct M as (ps' & F & M).
  assert (F' : fields 59 (join [59] ps) ps).
  { apply fields_join; [subst ps; destruct init; discriminate|]. subst ps. apply Forall_app in Tn. destruct Tn as [Tn1 Tn2].
    apply Forall_app. split; [exact Tn1|]. inversion Tn2; subst. constructor; [apply trim_end_no; assumption | constructor]. }
  apply fields_split in F, F'. assert (Q3 : ps' = ps) by congruence. rewrite Q3 in M.
  split; [congruence|]. split; [|exact M].
  assert (Qd : dir = show_single_direction (rid_direction r)) by congruence. rewrite Qd in Wd.
  destruct (rid_direction r), (rid_direction q); first [reflexivity | discriminate Wd].
Qed.
Lemma rid_read : forall r q init u, attr_wf (ARid r) -> rid_tokens r = init ++ [u] -> trim_end u <> [] ->
  attr_value (trim_end (show_rid r)) (ARid q) ->
  let ps := init ++ [trim_end u] in
  (exists pts fs rest, ps = (lit "pt=" ++ pts) :: rest /\ fields 44 pts fs /\
            Forall2 (fun f n => exists x, core f x /\ numeral u16_max x n) fs (rid_formats q) /\
            rid_params_value rest (rid_params_of q) (rid_depends q)) \/
         ((forall x rest, ps <> (lit "pt=" ++ x) :: rest) /\ rid_formats q = [] /\
            rid_params_value ps (rid_params_of q) (rid_depends q)).
Proof. intros r q init u W T Nu V. exact (proj2 (proj2 (rid_read_all r q init u W T Nu V))). Qed.

Lemma trim_end_length : forall t, (List.length (trim_end t) <= List.length t)%nat /\
  (ends_blank t -> (List.length (trim_end t) < List.length t)%nat).
Proof.
  intro t. destruct (trim_end_suffix t) as (w & K & _). pose proof (f_equal (@List.length _) K) as L. rewrite app_length in L.
  split; [lia|]. intro B. apply trim_end_blank in B. destruct w; [rewrite app_nil_r in K; congruence | cbn in L; lia].
Qed.
Lemma fields_nonempty : forall c t, ~ fields c t [].
Proof. intros c t F. inversion F. Qed.
Lemma last_of_end : forall A (l : list A) x, last_of l = Some x -> exists i, l = i ++ [x].
Proof.
  intros A l x H. destruct l as [|a l]; [discriminate H|]. destruct (@exists_last _ (a :: l)) as (i & y & K); [discriminate|].
  rewrite K, last_of_app in H. injection H as ->. exists i. exact K.
Qed.
Lemma depends_lost : forall d, d <> [] -> fields 44 (trim_end (depends_text d)) d ->
  ~ (In [] d /\ (2 <= List.length d)%nat) /\ ~ (exists t, last_of d = Some t /\ ends_blank t).
Proof.
  intros d N F. destruct (fields_join_inv _ _ _ F) as [J _]. apply (f_equal (@List.length _)) in J.
  destruct (trim_end_length (depends_text d)) as [L1 L2]. pose proof (join_size 44 d N) as Z.
  destruct (list_eq_dec N.eq_dec (depends_text d) []) as [D|D].
  - rewrite D in J. cbn in J. rewrite <- J in Z. split.
    + intros [_ K]. lia.
    + intros (t & K & B). apply last_of_end in K. destruct K as (i & ->). rewrite app_length in Z. cbn in Z.
      destruct i; [|cbn in Z; lia]. cbn in Z. destruct B as (c & x & -> & _). rewrite app_length in Z. cbn in Z. lia.
  - destruct (join_filter 44 d D) as [F1 F2]. fold (depends_text d) in F1, F2. split.
    + intros [K _]. specialize (F2 K). lia.
    + intros (t & K & B). apply last_of_end in K. destruct K as (i & K). assert (EB : ends_blank (depends_text d)).
      { unfold depends_text. rewrite K, filter_app. destruct B as (c & x & -> & B). cbn [filter].
        assert (Nx : non_empty (x ++ [c]) = true) by (destruct x; reflexivity). rewrite Nx.
        generalize (filter non_empty i). intro l. exists c. clear - B. induction l as [|y l IH].
        - exists x. split; [reflexivity | exact B].
        - destruct IH as (z & Hz & _). exists (y ++ [44] ++ z). split; [|exact B]. cbn [app]. rewrite join_cons by (destruct l; discriminate).
          rewrite Hz, <- !app_assoc. reflexivity. }
      specialize (L2 EB). lia.
Qed.
Lemma rid_lost : forall r, attr_wf (ARid r) -> rid_lossy r -> ~ attr_value (trim_end (show_rid r)) (ARid r).
Proof.
  intros r W L V. pose proof W as (W1 & W2 & W3 & W4). destruct (unknown_pairs _ _ W3) as (us & Eu & U1 & U2 & U3).
  set (p := rid_params_of r) in *.
  set (ps0 := (pairs (rid_segs p) ++ us) ++ pairs (depends_seg (rid_depends r))).
  assert (T : rid_tokens r = pt_tokens (rid_formats r) ++ map tok ps0).
  { unfold rid_tokens, ps0. fold p. rewrite !map_app, Eu, <- app_assoc. reflexivity. }
  assert (C0 : Forall (fun nv => ~ In 61 (fst nv)) ps0).
  { subst ps0. apply Forall_app; split; [apply Forall_app; split|].
    - apply seg_fst_no. unfold rid_segs. repeat (constructor; [cbn [fst]; apply not_in_b; reflexivity|]). constructor.
    - exact U2.
    - apply seg_fst_no. unfold depends_seg. constructor; [cbn [fst]; apply not_in_b; reflexivity | constructor]. }
  assert (N0 : ps0 <> []).
  { assert (K : ~ (us = [] /\ rid_depends r = [])).
    { intros [K1 K2]. rewrite K1 in Eu. destruct L as [[L _]|[(t & L & _)|(_ & _ & _ & _ & _ & _ & _ & x & l & L)]].
      - rewrite K2 in L. destruct L.
      - fold p in L. rewrite Eu, K2 in L. discriminate L.
      - fold p in L. rewrite Eu in L. discriminate L. }
    intro Q. subst ps0. apply app_eq_nil in Q. destruct Q as [Q Q2]. apply app_eq_nil in Q. destruct Q as [_ Q]. apply K.
    split; [exact Q|]. destruct (rid_depends r); [reflexivity | discriminate Q2]. }
  destruct (exists_last N0) as (pi & [n v] & Ep).
  set (ri := map tok pi) in *. set (u := tok (n, v)).
  assert (T2 : rid_tokens r = (pt_tokens (rid_formats r) ++ ri) ++ [u]) by (rewrite T, Ep, map_app, app_assoc; reflexivity).
  pose proof C0 as C1. rewrite Ep in C1. apply Forall_app in C1. destruct C1 as [C1 C2]. inversion C2 as [|? ? C3 _]; subst. cbn [fst] in C3.
  assert (Cu : cut 61 u n v) by (split; [reflexivity | exact C3]).
  pose proof (rid_read r r _ u W T2 (cut_trim_nonempty _ _ _ Cu) V) as R. cbv zeta in R.
  assert (P : rid_params_value (ri ++ [trim_end u]) p (rid_depends r) /\
              ~ (rid_formats r = [] /\ exists x l, ri ++ [trim_end u] = (lit "pt=" ++ x) :: l)).
  { destruct (rid_formats r) as [|f0 fl] eqn:Kf; cbn [pt_tokens app] in R.
    - destruct R as [(pts & fs & rest & _ & F & F2 & _)|(K & _ & R)].
      + inversion F2; subst. exfalso. exact (fields_nonempty _ _ F).
      + split; [exact R|]. intros [_ (x & l & K')]. exact (K _ _ K').
    - destruct R as [(pts & fs & rest & Q & _ & _ & R)|(K & _)].
      + injection Q as _ Q. rewrite <- Q in R. split; [exact R|]. intros [K _]. discriminate K.
      + exfalso. exact (K _ _ eq_refl). }
  clear R. destruct P as [(ps & Cp & _ & _ & _ & _ & _ & _ & (vs & ds & G & Fd & Ed) & us' & O & Eu2) NP].
  assert (Q : ps = pi ++ [(n, trim_end v)]).
  { apply (cuts_fun (ri ++ [trim_end u])); [exact Cp|]. apply Forall2_app; [apply tok_cut, C1|].
    constructor; [|constructor]. cbn [fst snd]. apply trim_end_cut; [reflexivity | exact Cu]. }
  subst ps.
  assert (P3 : max_width p = 0 -> max_height p = 0 -> max_fps p = 0 -> rid_max_fs p = 0 -> rid_max_br p = 0 -> max_pps p = 0 ->
    forall x l, rid_unknown p = (lit "pt=" ++ x) :: l -> exists x l, ri ++ [trim_end u] = (lit "pt=" ++ x) :: l).
  { intros L2 L3 L4 L5 L6 L7 x l L8.
    assert (K : ri ++ [u] = (lit "pt=" ++ x) :: l ++ map tok (pairs (depends_seg (rid_depends r)))).
    { change (ri ++ [u]) with (map tok pi ++ map tok [(n, v)]). rewrite <- map_app, <- Ep. unfold ps0. rewrite !map_app, <- Eu, L8.
      unfold rid_segs. rewrite L2, L3, L4, L5, L6, L7. reflexivity. }
    destruct ri as [|y ri'].
    - injection K as K _. exists (trim_end x), []. cbn [app]. f_equal. rewrite K.
      exact (trim_end_mid (lit "pt") 61 x eq_refl).
    - injection K as K _. exists x, (ri' ++ [trim_end u]). rewrite K. reflexivity. }
  assert (NU : forall m, In m rid_names -> Forall (fun nv => ~ is_word (fst nv) m) us).
  { intros m Hm. eapply Forall_impl; [|exact U1]. intros nv H K. apply H, Exists_exists. eauto. }
  destruct (rid_depends r) as [|d0 dl] eqn:Kd.
  - destruct L as [[L _]|[(t & L & B)|(L1 & L2 & L3 & L4 & L5 & L6 & L7 & x & l & L8)]].
    + rewrite Kd in L. destruct L.
    + fold p in L. rewrite Kd, app_nil_r, Eu in L. apply last_of_end in L. destruct L as (ui & L).
      assert (Nu : us <> []) by (intro K; rewrite K in L; destruct ui; discriminate L).
      destruct (exists_last Nu) as (usi & [n' v'] & Eus).
      assert (Q : pi = pairs (rid_segs p) ++ usi /\ (n, v) = (n', v')).
      { apply app_inj_tail. rewrite <- Ep. unfold ps0. rewrite Eus. cbn [depends_seg pairs flat_map of_option snd map]. rewrite !app_nil_r, app_assoc. reflexivity. }
      destruct Q as [Q1 Q2]. injection Q2 as <- <-.
      rewrite Eus, map_app in L. cbn [map] in L. apply app_inj_tail in L. destruct L as [_ L].
      assert (O' : others (fun n => Exists (is_word n) rid_names) (pi ++ [(n, trim_end v)]) (usi ++ [(n, trim_end v)])).
      { rewrite Q1, <- app_assoc. apply others_printed.
        - unfold rid_segs, rid_names. repeat (constructor; [cbn [fst]; repeat (first [apply Exists_cons_hd; reflexivity | apply Exists_cons_tl])|]). constructor.
        - rewrite Eus in U1. apply Forall_app in U1. destruct U1 as [U1 U1']. apply Forall_app. split; [exact U1|].
          inversion U1'; subst. constructor; [assumption | constructor]. }
      pose proof (others_fun _ _ _ _ O O') as Q3. rewrite Q3, map_app, Eu, Eus, map_app in Eu2. cbn [map fst snd] in Eu2.
      apply app_inj_tail in Eu2. destruct Eu2 as [_ Eu2]. apply (trim_end_blank _ B). rewrite <- L. fold u.
      destruct (trim_end_cut 61 _ _ _ eq_refl Cu) as [K _]. rewrite K. symmetry. exact Eu2.
    + apply NP. split; [exact L1 | exact (P3 L2 L3 L4 L5 L6 L7 x l L8)].
  - rewrite <- Kd in *. assert (Nd : rid_depends r <> []) by (rewrite Kd; discriminate).
    assert (Q : pi = pairs (rid_segs p) ++ us /\ (n, v) = (lit "depends", depends_text (rid_depends r))).
    { apply app_inj_tail. rewrite <- Ep. unfold ps0, depends_seg. rewrite Kd. reflexivity. }
    destruct Q as [Q1 Q2]. injection Q2 as Qn Qv.
    assert (G' : given (fun n => is_word n "depends") (pi ++ [(n, trim_end v)]) [trim_end v]).
    { apply (given_app _ pi [(n, trim_end v)] [] [trim_end v]).
      - rewrite Q1. apply (given_printed _ (fun x => str_eqb x (of_string "depends")) _ _ None);
          [apply word_test | reflexivity | apply NU; cbn; auto 10].
      - constructor; [rewrite Qn; reflexivity | constructor]. }
    pose proof (given_fun _ _ _ _ G G') as Q3. rewrite Q3 in Fd. inversion Fd as [|? d ? ds' Fd1 Fd2]; subst ds. inversion Fd2; subst ds'.
    cbn [List.concat] in Ed. rewrite app_nil_r in Ed. subst d. rewrite Qv in Fd1.
    destruct (depends_lost _ Nd Fd1) as [D1 D2].
    destruct L as [L|[(t & L & B)|(L1 & L2 & L3 & L4 & L5 & L6 & L7 & x8 & l8 & L8)]].
    + exact (D1 L).
    + apply D2. exists t. split; [|exact B]. destruct (exists_last Nd) as (i & z & Ez). rewrite Ez in L |- *.
      rewrite app_assoc, last_of_app in L. rewrite last_of_app. exact L.
    + apply NP. split; [exact L1 | exact (P3 L2 L3 L4 L5 L6 L7 x8 l8 L8)].
Qed.

(** ** Lines *)
Lemma item_lost : forall ty, item_wf ty -> item_lossy ty -> ~ item_nan ty -> ~ line_means (printed_line ty) ty.
Proof.
  intros [a| | | | | | | ] [R W] L N M; try exact L. cbn [item_range item_lossy item_nan] in *.
  destruct a; try exact L; try exact (N L);
    lazymatch type of M with line_means _ (TyAttribute ?x) =>
      destruct (value_of_printed x _ _ (fun F => F) eq_refl eq_refl M) as [Ne V] end.
  - exact (fmtp_lost _ R W L Ne V).
  - exact (msid_semantic_lost _ W L V).
  - exact (rid_lost _ W L V).
  - exact (simulcast_lost _ W L V).
Qed.
Lemma line_exactly : forall line n l n', parse_sdp_line line n = Ok l -> ~ item_nan (l_type l) ->
  countable (l_type l) (List.length (printed_line (l_type l))) ->
  ((exists l', parse_sdp_line (printed_line (l_type l)) n' = Ok l' /\ l_type l' = l_type l) <-> ~ item_lossy (l_type l)).
Proof.
  intros line n l n' P N C. pose proof (line_means_wf X _ _ _ P) as W. split.
  - intros (l' & P' & Q) L. apply line_fwd in P'. destruct P' as (_ & _ & M). rewrite Q in M. exact (item_lost _ W L N M).
  - intro L. destruct (line_round_trip X _ _ _ n' P L C) as (l' & P' & Q & _). exists l'. split; assumption.
Qed.

(** ** Sessions *)
Definition is_attribute (ty : sdp_type) : bool := match ty with TyAttribute _ => true | _ => false end.
Definition attribute_line (line : str) : bool := match line with c :: _ => c =? 97 | [] => false end.
Definition plain (line : str) : Prop := exists c v, line = c :: 61 :: v /\ In c (lit "vostbcam").
Lemma plain_printed : forall ty, plain (printed_line ty).
Proof. intro ty. exists (line_letter ty), (item_text ty). split; [reflexivity|]. destruct ty; cbn; auto 12. Qed.
Lemma plain_means : forall line ty, plain line -> line_means line ty -> attribute_line line = is_attribute ty.
Proof.
  intros line ty (c & v & -> & I) M. cbn [attribute_line].
  cbn in I. repeat destruct I as [<-|I]; [..|destruct I];
    (apply means_plain in M; [|reflexivity | discriminate]); destruct M as [S _];
    destruct ty; vm_compute in S; first [reflexivity | discriminate S].
Qed.
Lemma Forall2_size : forall A B (R : A -> B -> Prop) l l', Forall2 R l l' -> List.length l = List.length l'.
Proof. intros A B R l l' F. induction F; cbn [List.length]; congruence. Qed.
Lemma filter_Forall2 : forall A B (R : A -> B -> Prop) f g l l', Forall2 R l l' ->
  (forall x y, In x l -> R x y -> f x = g y) -> Forall2 R (filter f l) (filter g l').
Proof.
  intros A B R f g l l' F. induction F as [|x y l l' H F IH]; intro K; [constructor|]. cbn [filter].
  rewrite <- (K x y (or_introl eq_refl) H). assert (IH' := IH (fun x' y' I => K x' y' (or_intror I))).
  destruct (f x); [constructor; assumption | exact IH'].
Qed.
Lemma plain_lines_mean : forall ls ts, Forall plain ls -> lines_mean ls ts -> Forall2 line_means ls ts.
Proof.
  intros ls ts F M. induction M as [|x ls ts B M IH|x ls ty ts B H M IH]; inversion F as [|? ? Px F']; subst.
  - constructor.
  - exfalso. destruct Px as (c & v & -> & I). inversion B as [|? ? Bc _]; subst. revert I Bc. generalize c. clear.
    assert (K : Forall (fun c => is_ws c <> true) (lit "vostbcam")) by (repeat constructor; discriminate).
    intros c I. exact (Forall_in _ _ _ K I).
  - constructor; [exact H | apply IH, F'].
Qed.
Lemma attribute_items : forall ts, filter is_attribute ts = map TyAttribute (attributes ts).
Proof.
  induction ts as [|[] ts IH]; cbn [filter is_attribute]; try exact IH; [reflexivity|].
  unfold attributes in *. cbn [flat_map app map]. f_equal. exact IH.
Qed.
Lemma filter_length_le : forall A (f : A -> bool) l, (List.length (filter f l) <= List.length l)%nat.
Proof. intros A f l. induction l as [|x l IH]; [reflexivity|]. cbn [filter]. destruct (f x); cbn [List.length]; lia. Qed.
Lemma filter_same : forall A (f : A -> bool) l, List.length (filter f l) = List.length l -> filter f l = l.
Proof.
  intros A f l. induction l as [|x l IH]; intro H; [reflexivity|]. cbn [filter] in *.
  pose proof (filter_length_le A f l) as L. destruct (f x); cbn [List.length] in *; [f_equal; apply IH; lia | lia].
Qed.
Definition shown (a : attr) : str := printed_line (TyAttribute a).
Lemma attribute_lines_size : forall l, (List.length (attribute_lines l) <= List.length l)%nat /\
  (List.length (attribute_lines l) = List.length l -> attribute_lines l = map shown l) /\
  Forall plain (attribute_lines l) /\ forallb attribute_line (attribute_lines l) = true.
Proof.
  intro l. unfold attribute_lines. destruct l as [|a l]; [repeat split; constructor|].
  set (f := fun t : str => match t with [] => false | _ => true end).
  set (ts := map show_attr (a :: l)).
  assert (Ln : List.length ts = List.length (a :: l)) by apply map_length.
  pose proof (filter_length_le _ f ts) as Le.
  assert (Mp : forall us, map (app (lit "a=")) us = map (fun t => 97 :: 61 :: t) us) by (intro; reflexivity).
  destruct (filter f ts) as [|t us] eqn:Kf.
  - split; [cbn; lia|]. split; [|split; [|reflexivity]].
    + intro K. destruct l; [|discriminate K]. cbn in ts. subst ts. cbn [filter] in Kf. unfold shown, printed_line. cbn [map item_text].
      destruct (show_attr a); [reflexivity | discriminate Kf].
    + constructor; [|constructor]. exists 97, []. split; [reflexivity | cbn; auto 12].
  - rewrite <- Kf in *. rewrite map_length. split; [lia|]. split; [|split].
    + intro K. rewrite (filter_same _ _ _ (eq_trans K (eq_sym Ln))). subst ts. rewrite map_map. reflexivity.
    + apply Forall_map_in. intros x _. exists 97, x. split; [reflexivity | cbn; auto 12].
    + apply forallb_forall. intros x Hx. apply in_map_iff in Hx. destruct Hx as (y & <- & _). reflexivity.
Qed.

Definition all_attributes (s : session) : list attr := s_attribute s ++ flat_map m_attribute (s_media s).
Lemma attribute_item : forall s a, In (TyAttribute a) (session_items s) -> In a (all_attributes s).
Proof.
  intros s a I. unfold session_items in I. unfold all_attributes.
  destruct I as [I|[I|I]]; [discriminate I | discriminate I|]. rewrite !in_app_iff in I. apply in_or_app.
  destruct I as [I|[I|[I|[I|I]]]]; try (apply in_map_iff in I; destruct I as (? & I & _); discriminate I).
  - apply in_map_iff in I. destruct I as (a' & Q & I). injection Q as ->. left. exact I.
  - right. apply in_flat_map in I. destruct I as (m & Im & I). apply in_flat_map. exists m. split; [exact Im|].
    unfold media_items in I. destruct I as [I|I]; [discriminate I|]. rewrite !in_app_iff in I.
    destruct I as [I|[I|I]]; try (apply in_map_iff in I; destruct I as (? & I & _); discriminate I).
    apply in_map_iff in I. destruct I as (a' & Q & I). injection Q as ->. exact I.
Qed.
Lemma filter_none : forall A (f : A -> bool) l, Forall (fun x => f x = false) l -> filter f l = [].
Proof. intros A f l F. induction F as [|x l H F IH]; [reflexivity|]. cbn [filter]. rewrite H. exact IH. Qed.
Lemma other_lines : forall {A} (c : A -> sdp_type) l, (forall x, is_attribute (c x) = false) ->
  filter attribute_line (map (fun x => printed_line (c x)) l) = [].
Proof.
  intros A c l H. apply filter_none, Forall_map_in. intros x _. specialize (H x).
  destruct (c x); try reflexivity. discriminate H.
Qed.
Lemma session_attribute_lines : forall s,
  filter attribute_line (session_lines s) = attribute_lines (s_attribute s) ++ flat_map (fun m => attribute_lines (m_attribute m)) (s_media s).
Proof.
  intro s. assert (A : forall l, filter attribute_line (attribute_lines l) = attribute_lines l).
  { intro l. apply filter_all. apply attribute_lines_size. }
  unfold session_lines. cbn [filter printed_line line_letter attribute_line]. cbn -[attribute_lines printed_line attribute_line filter map flat_map].
  rewrite !filter_app, !other_lines, A by reflexivity. cbn [app]. f_equal.
  induction (s_media s) as [|m l IH]; [reflexivity|]. cbn [flat_map]. rewrite filter_app, IH. f_equal.
  unfold media_lines. cbn [filter]. change (attribute_line (printed_line (TyMedia (m_media m)))) with false. cbn iota.
  rewrite !filter_app, !other_lines, A by reflexivity. reflexivity.
Qed.
Lemma session_plain : forall s, Forall plain (session_lines s).
Proof.
  intro s. unfold session_lines.
  assert (M : forall A (c : A -> sdp_type) l, Forall plain (map (fun x => printed_line (c x)) l)).
  { intros A c l. apply Forall_map_in. intros x _. apply plain_printed. }
  do 3 (constructor; [apply plain_printed|]). do 3 (apply Forall_app; split; [apply M|]).
  apply Forall_app; split; [apply attribute_lines_size|]. apply Forall_forall. intros x Hx. apply in_flat_map in Hx.
  destruct Hx as (m & _ & Hx). unfold media_lines in Hx. destruct Hx as [<-|Hx]; [apply plain_printed|].
  rewrite !in_app_iff in Hx. destruct Hx as [Hx|[Hx|Hx]]; [exact (Forall_in _ _ _ (M _ _ _) Hx).. |].
  revert x Hx. apply Forall_forall, attribute_lines_size.
Qed.
Lemma flat_map_size : forall A B C (f : A -> list B) (g : A -> list C) l,
  (forall x, (List.length (f x) <= List.length (g x))%nat) ->
  (List.length (flat_map f l) <= List.length (flat_map g l))%nat /\
  ((List.length (flat_map g l) <= List.length (flat_map f l))%nat -> forall x, In x l -> List.length (f x) = List.length (g x)).
Proof.
  intros A B C f g l H. induction l as [|x l [I1 I2]]; [split; [reflexivity | intros _ x []]|]. cbn [flat_map]. rewrite !app_length.
  specialize (H x). split; [lia|]. intros K y [<-|Iy]; [lia|]. apply I2; [lia | exact Iy].
Qed.
Lemma session_kept : forall s ts, lines_mean (session_lines s) ts -> Assembles ts (with_warnings s []) ->
  forall a, In a (all_attributes s) -> line_means (shown a) (TyAttribute a).
Proof.
  intros s ts M (name & head & secs & Ets & _ & _ & _ & _ & Ea & _ & _ & Em). cbn [with_warnings s_attribute s_media] in *.
  apply (plain_lines_mean _ _ (session_plain s)) in M.
  apply (filter_Forall2 _ _ _ attribute_line is_attribute) in M.
  2:{ intros x y I K. apply plain_means; [exact (Forall_in _ _ _ (session_plain s) I) | exact K]. }
  rewrite session_attribute_lines, attribute_items in M.
  set (L := attribute_lines (s_attribute s) ++ flat_map (fun m => attribute_lines (m_attribute m)) (s_media s)) in *.
  assert (Et : attributes ts = attributes head ++ flat_map (fun x : section => attributes (snd x)) secs).
  { rewrite Ets. unfold attributes. cbn [flat_map app]. rewrite flat_map_app. f_equal. clear.
    induction secs as [|x secs IH]; [reflexivity|]. cbn [flat_map section_lines]. rewrite flat_map_app, <- IH. reflexivity. }
  rewrite <- Ea in Et.
  assert (Len : List.length L = List.length (attributes ts)) by (rewrite <- (map_length TyAttribute); exact (Forall2_size _ _ _ _ _ M)).
  destruct (attribute_lines_size (s_attribute s)) as (S1 & S2 & _).
  destruct (flat_map_size _ _ _ (fun m => attribute_lines (m_attribute m)) m_attribute (s_media s)) as [G1 G2];
    [intro m; apply attribute_lines_size|].
  destruct (flat_map_size _ _ _ (fun x : section => filter (SpecApi.not_named "dtls-message") (attributes (snd x)))
              (fun x : section => attributes (snd x)) secs) as [D1 D2]; [intro x; apply filter_length_le|].
  assert (Fm : flat_map m_attribute (s_media s) = flat_map (fun x : section => filter (SpecApi.not_named "dtls-message") (attributes (snd x))) secs).
  { rewrite Em. clear. induction secs as [|x secs IH]; [reflexivity|]. cbn [map flat_map]. rewrite IH. reflexivity. }
  rewrite <- Fm in D1, D2. rewrite Et in Len. subst L. rewrite !app_length in Len.
  assert (K1 : attribute_lines (s_attribute s) = map shown (s_attribute s)) by (apply S2; lia).
  assert (K2 : flat_map (fun m => attribute_lines (m_attribute m)) (s_media s) = map shown (flat_map m_attribute (s_media s))).
  { assert (G3 : forall m, In m (s_media s) -> attribute_lines (m_attribute m) = map shown (m_attribute m)).
    { intros m Im. apply attribute_lines_size, G2; [lia | exact Im]. }
    clear - G3. induction (s_media s) as [|m l IH]; [reflexivity|]. cbn [flat_map]. rewrite map_app, IH, G3; [reflexivity | now left |].
    intros x Hx. apply G3. now right. }
  assert (K3 : flat_map (fun x : section => attributes (snd x)) secs = flat_map m_attribute (s_media s)).
  { rewrite Fm. assert (D3 := D2 ltac:(lia)). clear - D3. induction secs as [|x l IH]; [reflexivity|]. cbn [flat_map]. rewrite IH.
    - f_equal. symmetry. apply filter_same, D3. now left.
    - intros y Hy. apply D3. now right. }
  rewrite Et, K1, K2, K3, <- map_app in M. fold (all_attributes s) in M. clear - M.
  induction (all_attributes s) as [|a l IH]; intros b [].
  - subst b. inversion M. assumption.
  - apply IH; [inversion M; assumption | assumption].
Qed.
Lemma session_exactly : forall sdp b s b', parse_sdp sdp b = Ok s -> ~ Exists item_nan (session_items s) ->
  (Z.of_nat (List.length (show_session s)) < 2147483648)%Z ->
  (parse_sdp (show_session s) b' = Ok (with_warnings s []) <-> 51 <= byte_len (show_session s) /\ ~ session_lossy s).
Proof.
  intros sdp b s b' P Nn Sh. split.
  - intro Q. destruct (parsed_session_wf X _ _ _ P) as [W St]. apply document in Q.
    destruct Q as (B & ts & ws & R & Hw & _ & _ & A & _). split; [exact B|]. intro L.
    cbn [with_warnings s_warnings] in Hw. subst ws. apply reads_mean in R.
    destruct (session_lines_ok X s (proj1 (proj2 W))) as (_ & T & _). rewrite T in R.
    apply Exists_exists in L. destruct L as (ty & I & L). pose proof (Forall_in _ _ _ (proj1 W) I) as Wi.
    destruct ty; try exact L. apply (item_lost _ Wi L).
    + intro K. apply Nn, Exists_exists. exists (TyAttribute a). split; assumption.
    + exact (session_kept s ts R A a (attribute_item _ _ I)).
  - intros [B L]. exact (session_round_trip X _ _ _ b' P L B Sh).
Qed.
End WithExt.

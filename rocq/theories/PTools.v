(** * Proofs for C49 and C50 *)
From Coq Require Import List NArith ZArith Bool Ascii String Lia.
From Coq Require Import ZifyBool ZifyN ZifyNat.
From Verif Require Import Str Num Net Types Ext Show Media Session SpecApi SpecDoc SpecVal Tools SpecTools
  StrLemmas PDoc PDoc2 PDoc3 PPanic PVal PVal9 PUnsup.
Import ListNotations.
Open Scope N_scope.
Open Scope list_scope.

Section WithExt.
Context {E : Ext}.

(** ** C49 *)
Lemma serialized_shape : forall e,
  ser_name (serialize_perr e) = of_string "error" /\
  ser_len (serialize_perr e) = List.length (ser_fields (serialize_perr e)) /\
  NoDup (map fst (ser_fields (serialize_perr e))).
Proof.
  intros [e l n|e l n|m n]; (split; [reflexivity|]); (split; [reflexivity|]);
    cbn [serialize_perr ser_fields app map fst]; repeat (constructor; [cbn [In]; intuition discriminate|]); constructor.
Qed.
Lemma serialized_retold : forall e, retold (ser_fields (serialize_perr e)) (show_perr e).
Proof.
  intros [e l n|e l n|m n]; cbn [serialize_perr ser_fields app show_perr].
  - apply (retold_line _ "Line" "Line error: "); try reflexivity. left. reflexivity.
  - apply (retold_line _ "Unsupported" "Unsupported: "); try reflexivity. right. reflexivity.
  - apply (retold_sequence _ m n); reflexivity.
Qed.
Lemma shown_inj : forall a b, show_ierr a = show_ierr b -> a = b.
Proof.
  intros a b H.
  assert (K : forall i j, show_int_err i = show_int_err j -> i = j) by (intros [] []; try reflexivity; discriminate).
  assert (L : forall i j, show_float_err i = show_float_err j -> i = j) by (intros [] []; try reflexivity; discriminate).
  destruct a, b; cbn [show_ierr] in H; try discriminate H; try reflexivity;
    try (apply app_inv_head in H; first [rewrite H; reflexivity | f_equal; first [apply K, H | apply L, H]]).
  destruct found, expected, found0, expected0; try reflexivity; discriminate H.
Qed.
Lemma serialized_inj : forall a b, serialize_perr a = serialize_perr b -> a = b.
Proof.
  intros [e l n|e l n|m n] [e' l' n'|e' l' n'|m' n'] H; try discriminate H.
  1,2: injection H as H1 -> ->; rewrite (shown_inj e e'); [reflexivity|]; cbn [show_ierr]; exact H1.
  injection H as -> ->. reflexivity.
Qed.
Lemma source_within : forall e x, dyn_source e = Some x ->
  exists a b, show_dyn e = a ++ show_dyn x ++ b /\ a <> [].
Proof.
  intros [[e l n|e l n|m n]|[]| | | |] x H; cbn [dyn_source perr_source ierr_source] in H; inversion H; subst;
    cbn [show_dyn show_perr show_ierr].
  - eexists _, _. split; [reflexivity|discriminate].
  - eexists _, _. split; [reflexivity|discriminate].
  - eexists (lit "Integer parsing error: "), []. rewrite app_nil_r. split; [reflexivity|discriminate].
  - eexists (lit "Float parsing error: "), []. rewrite app_nil_r. split; [reflexivity|discriminate].
  - eexists (lit "Domain name parsing error: "), []. rewrite app_nil_r. split; [reflexivity|discriminate].
  - eexists (lit "IP address parsing error: "), []. rewrite app_nil_r. split; [reflexivity|discriminate].
Qed.
Lemma source_none : forall e, dyn_source e = None <-> uncaused e.
Proof. intros [[]|[]| | | |]; cbn; split; intro H; try discriminate H; try contradiction; auto. Qed.

(** Numbers in Sequence errors are those of lines, or positions among them. *)
Definition numbered (l : list sdp_line) (n : nat) : Prop := exists x, In x l /\ l_number x = n.
Lemma media_loop_num : forall ls d m msg n, media_loop d m ls = Err (PSequence msg n) -> numbered ls n.
Proof.
  induction ls as [|x ls IH]; intros d m msg n H; cbn [media_loop] in H; [discriminate|].
  assert (K : numbered ls n -> numbered (x :: ls) n) by (intros (y & I & Y); exists y; split; [right|]; assumption).
  assert (K0 : forall m0, Err (PSequence m0 (l_number x)) = @Err perr (list media) (PSequence msg n) -> numbered (x :: ls) n).
  { intros m0 X. injection X as _ <-. exists x. split; [left|]; reflexivity. }
  destruct (l_type x); try (eapply K0; exact H); try (apply K; eapply IH; exact H).
  - destruct (media_line_attribute a m) as [? []]; [apply K; eapply IH; exact H|eapply K0; exact H|discriminate].
  - destruct (m_connection m); [eapply K0; exact H|apply K; eapply IH; exact H].
Qed.
Lemma session_vector_num : forall ls s s' msg n, parse_session_vector s ls = (s', Err (PSequence msg n)) -> numbered ls n.
Proof.
  induction ls as [|x ls IH]; intros s s' msg n H; cbn [parse_session_vector] in H; [discriminate|].
  assert (K : numbered ls n -> numbered (x :: ls) n) by (intros (y & I & Y); exists y; split; [right|]; assumption).
  assert (K0 : forall s0 m0, (s0, Err (PSequence m0 (l_number x))) = (s', @Err perr unit (PSequence msg n)) -> numbered (x :: ls) n).
  { intros s0 m0 X. injection X as _ _ <-. exists x. split; [left|]; reflexivity. }
  destruct (l_type x); try (eapply K0; exact H); try (apply K; eapply IH; exact H).
  destruct (session_add_attribute a s) as [? []]; [apply K; eapply IH; exact H|eapply K0; exact H|discriminate].
Qed.
Lemma split_at_media_in : forall (l a b : list sdp_line), split_at_media l = (a, b) -> l = a ++ b.
Proof.
  induction l as [|x l IH]; cbn [split_at_media]; intros a b H; [injection H as <- <-; reflexivity|].
  destruct (is_media_line x); [injection H as <- <-; reflexivity|].
  destruct (split_at_media l) as [a' b']. injection H as <- <-. cbn. f_equal. apply IH. reflexivity.
Qed.
Lemma vector_num : forall (l : list sdp_line) msg n, parse_sdp_vector l = Err (PSequence msg n) ->
  n = 0%nat \/ (n < List.length l)%nat \/ numbered l n.
Proof.
  intros l msg n H. unfold parse_sdp_vector in H.
  destruct (Nat.ltb_spec (List.length l) 4) as [|L4]; [inversion H; auto|].
  destruct l as [|l0 l]; [cbn in *; lia|]. destruct l as [|l1 l]; [cbn in *; lia|]. destruct l as [|l2 l]; [cbn in *; lia|].
  assert (D : forall k, (k < 3)%nat -> (k < List.length (l0 :: l1 :: l2 :: l))%nat) by (intros; cbn; lia).
  cbn [idx nth_error bind skipn] in H. destruct (l_type l0) eqn:K0; try (inversion H; auto; fail).
  cbn [idx nth_error bind skipn] in H. destruct (l_type l1) eqn:K1; try (inversion H; right; left; apply D; lia).
  cbn [idx nth_error bind skipn] in H. destruct (l_type l2) eqn:K2; try (inversion H; right; left; apply D; lia). cbv zeta in H.
  destruct (split_at_media l) as [lh lt] eqn:SP. apply split_at_media_in in SP.
  assert (U : forall k, (forall x, In x k -> In x l) -> numbered k n -> n = 0%nat \/ (n < List.length (l0 :: l1 :: l2 :: l))%nat \/ numbered (l0 :: l1 :: l2 :: l) n).
  { intros k I (x & Ix & X). right. right. exists x. split; [do 3 right; apply I, Ix|exact X]. }
  assert (Z : forall s e, sanity_check s = Err e -> Err (PSequence msg n) = @Err perr session e -> n = 0%nat).
  { intros s0 e K X. destruct (sanity_err _ _ K) as [m ->]. injection X as _ ->. reflexivity. }
  destruct (parse_session_vector (session_new v o s) lh) as [s1 [[]|e1|]] eqn:S1; cbn [keep bind] in H.
  - destruct lt as [|x lt].
    + cbn [bind] in H. destruct (sanity_check s1) eqn:K; cbn [bind] in H; try discriminate H.
      left. eapply Z; [exact K|symmetry; exact H].
    + cbn [parse_media_vector] in H. destruct (l_type x) eqn:KX.
      all: cbn [bind] in H.
      all: lazymatch type of H with Err _ = _ => injection H as _ <-; apply (U [x]); [intros y [<-|[]]; rewrite SP; apply in_app_iff; right; left; reflexivity|exists x; split; [left|]; reflexivity] | _ => idtac end.
      destruct (media_loop [] (media_new m) lt) eqn:ML; cbn [bind] in H; try discriminate H.
      * destruct (sanity_check _) eqn:K in H; cbn [bind] in H; try discriminate H.
        left. eapply Z; [exact K|symmetry; exact H].
      * injection H as ->. apply (U lt); [intros y I; rewrite SP; apply in_app_iff; right; right; exact I|].
        eapply media_loop_num; exact ML.
  - assert (X : e1 = PSequence msg n) by (destruct lt; cbn [bind] in H; injection H as ->; reflexivity). subst e1.
    apply (U lh); [intros y I; rewrite SP; apply in_app_iff; left; exact I|].
    eapply session_vector_num; exact S1.
  - destruct lt; discriminate H.
Qed.

(** The lines kept and the errors found by the loop, by number. *)
Lemma scan_numbers : forall ls n L H W, Scan n ls L H W ->
  (List.length L <= List.length ls)%nat /\
  Forall (fun x => (n <= l_number x < n + List.length ls)%nat) L /\
  Forall (fun e => exists k line x, (e = PLine x line k \/ e = PUnsupported x line k) /\ (n <= k)%nat /\
            nth_error ls (k - n) = Some line) (H ++ W).
Proof.
  intros ls n L H W S. induction S as [n|n x r L H W B S IH|n x r L H W l B P S IH|n x r L H W e B P S IH|n x r L H W e B P S IH].
  - split; [constructor|]. split; constructor.
  - destruct IH as (I1 & I2 & I3). cbn [List.length]. split; [lia|]. split.
    + eapply Forall_impl; [|exact I2]. cbn. intros. lia.
    + eapply Forall_impl; [|exact I3]. cbn. intros e (k & line & y & K1 & K2 & K3). exists k, line, y.
      split; [exact K1|]. split; [lia|]. replace (k - n)%nat with (Datatypes.S (k - Datatypes.S n)) by lia. exact K3.
  - destruct IH as (I1 & I2 & I3). cbn [List.length]. split; [lia|]. split.
    + constructor.
      * rewrite (proj1 (line_ok_fields _ _ _ P)). lia.
      * eapply Forall_impl; [|exact I2]. cbn. intros. lia.
    + eapply Forall_impl; [|exact I3]. cbn. intros e (k & line & y & K1 & K2 & K3). exists k, line, y.
      split; [exact K1|]. split; [lia|]. replace (k - n)%nat with (Datatypes.S (k - Datatypes.S n)) by lia. exact K3.
  - destruct IH as (I1 & I2 & I3). cbn [List.length]. split; [lia|]. split.
    + eapply Forall_impl; [|exact I2]. cbn. intros. lia.
    + apply Forall_app in I3. destruct I3 as [I3 I4].
      assert (Q : forall F, Forall (fun e => exists k line x, (e = PLine x line k \/ e = PUnsupported x line k) /\ (Datatypes.S n <= k)%nat /\ nth_error r (k - Datatypes.S n) = Some line) F ->
        Forall (fun e => exists k line x0, (e = PLine x0 line k \/ e = PUnsupported x0 line k) /\ (n <= k)%nat /\ nth_error (x :: r) (k - n) = Some line) F).
      { intros F. apply Forall_impl. intros f (k & line & y & K1 & K2 & K3). exists k, line, y.
        split; [exact K1|]. split; [lia|]. replace (k - n)%nat with (Datatypes.S (k - Datatypes.S n)) by lia. exact K3. }
      apply Forall_app. split; [apply Q, I3|]. constructor; [|apply Q, I4].
      exists n, x, e. split; [right; reflexivity|]. split; [lia|]. rewrite Nat.sub_diag. reflexivity.
  - destruct IH as (I1 & I2 & I3). cbn [List.length]. split; [lia|]. split.
    + eapply Forall_impl; [|exact I2]. cbn. intros. lia.
    + constructor.
      * exists n, x, e. split; [left; reflexivity|]. split; [lia|]. rewrite Nat.sub_diag. reflexivity.
      * eapply Forall_impl; [|exact I3]. cbn. intros f (k & line & y & K1 & K2 & K3). exists k, line, y.
        split; [exact K1|]. split; [lia|]. replace (k - n)%nat with (Datatypes.S (k - Datatypes.S n)) by lia. exact K3.
Qed.
Lemma obtained_line : forall sdp b e, 51 <= byte_len sdp -> obtained sdp b e ->
  exists n line, field "line_number" (ser_fields (serialize_perr e)) = Some (SerUsize n) /\
    nth_error (lines sdp) n = Some line /\
    (field "line" (ser_fields (serialize_perr e)) = None \/
     field "line" (ser_fields (serialize_perr e)) = Some (SerStr line)).
Proof.
  intros sdp b e B O. destruct (parse_cases sdp B) as [(L & H & W & S)|P].
  2: { destruct O as [O|(s & O & _)]; rewrite P in O; discriminate O. }
  destruct (scan_numbers _ _ _ _ _ S) as (L1 & L2 & F). rewrite Nat.add_0_l in L2.
  assert (Q : In e (H ++ W) -> exists n line, field "line_number" (ser_fields (serialize_perr e)) = Some (SerUsize n) /\
    nth_error (lines sdp) n = Some line /\
    (field "line" (ser_fields (serialize_perr e)) = None \/
     field "line" (ser_fields (serialize_perr e)) = Some (SerStr line))).
  { intro I. apply (proj1 (Forall_forall _ _) F) in I. destruct I as (k & line & x & K & _ & N).
    rewrite Nat.sub_0_r in N. exists k, line. destruct K as [-> | ->]; (split; [reflexivity|]); (split; [exact N|]); right; reflexivity. }
  destruct O as [O|(s & O & I)]; rewrite (parse_scan _ _ _ _ _ B S) in O; unfold finish in O.
  - assert (C : (In e (H ++ W)) \/ exists m n, e = PSequence m n /\ parse_sdp_vector L = Err (PSequence m n)).
    { assert (T : match last_error H with
            | Some e => Err e
            | None => s <- parse_sdp_vector L ;; Ok (session_with_warnings W s)
            end = Err e -> (In e (H ++ W)) \/ exists m n, e = PSequence m n /\ parse_sdp_vector L = Err (PSequence m n)).
      { unfold last_error. destruct (rev H) as [|h r] eqn:R; cbn [hd_error].
        - destruct (parse_sdp_vector L) as [s|e1|] eqn:V; cbn [bind]; intro X; try discriminate X.
          injection X as ->. destruct (vector_err _ _ V) as (m & n & ->). right. eauto.
        - intro X. injection X as ->. left. apply in_app_iff. left. apply in_rev. rewrite R. left. reflexivity. }
      destruct b; [|apply T, O]. destruct W as [|w W]; [apply T, O|]. injection O as ->. left. apply in_app_iff. right. left. reflexivity. }
    destruct C as [C|(m & n & -> & V)]; [apply Q, C|].
    assert (NL : (n < List.length (lines sdp))%nat).
    { destruct (vector_num _ _ _ V) as [->|[V1|(x & I & X)]].
      - destruct (lines sdp) as [|x ls] eqn:K; [|cbn; lia]. exfalso.
        destruct (every_text_is_doc sdp) as (d & D & T). rewrite <- T, (lines_doc d D) in K. unfold doc_lines in K.
        apply app_eq_nil in K. destruct K as [K1 K2]. unfold doc_text in T. destruct (d_lines d); [|discriminate K1].
        destruct (d_last d); [|discriminate K2]. subst sdp. cbn in B. lia.
      - lia.
      - apply (proj1 (Forall_forall _ _) L2) in I. lia. }
    destruct (nth_error (lines sdp) n) as [line|] eqn:K; [|apply nth_error_None in K; lia].
    exists n, line. split; [reflexivity|]. split; [exact K|]. left. reflexivity.
  - apply Q, in_app_iff. right.
    assert (T : match last_error H with
            | Some e => Err e
            | None => s <- parse_sdp_vector L ;; Ok (session_with_warnings W s)
            end = Ok s -> s_warnings s = W).
    { destruct (last_error H); [discriminate|]. destruct (parse_sdp_vector L); cbn [bind]; intro X; try discriminate X.
      injection X as <-. reflexivity. }
    destruct b; [|rewrite (T O) in I; exact I]. destruct W as [|w W]; [rewrite (T O) in I; exact I|discriminate O].
Qed.

(** ** C50 *)
Definition commentb (l : str) : bool := starts_with_char 59 (trim_start l).
Lemma comment_iff : forall l, comment l <-> commentb l = true.
Proof.
  unfold commentb, comment. induction l as [|c l IH]; cbn [trim_start].
  - split; [intros (w & x & H & _); destruct w; discriminate H|discriminate].
  - destruct (is_ws c) eqn:K.
    + rewrite <- IH. split.
      * intros (w & x & H & B). destruct w as [|d w]; cbn in H; injection H as -> H; [discriminate K|].
        exists w, x. split; [exact H|]. inversion B; assumption.
      * intros (w & x & H & B). exists (c :: w), x. split; [cbn; f_equal; exact H|constructor; assumption].
    + cbn [starts_with_char]. rewrite N.eqb_eq. split.
      * intros (w & x & H & B). destruct w as [|d w]; cbn in H; injection H as -> H; [reflexivity|].
        inversion B; congruence.
      * intros ->. exists [], l. split; [reflexivity|constructor].
Qed.
Lemma kept_iff : forall l k, kept l k <-> k = filter (fun l => negb (commentb l)) l.
Proof.
  induction l as [|x l IH]; intros k; cbn [filter].
  - split; [intro H; inversion H; reflexivity|intros ->; constructor].
  - split.
    + intro H. inversion H as [|x0 l0 k0 C K|x0 l0 k0 C K]; subst.
      * apply comment_iff in C. rewrite C. cbn. apply IH, K.
      * rewrite comment_iff in C. apply not_true_is_false in C. rewrite C. cbn. f_equal. apply IH, K.
    + intros ->. destruct (commentb x) eqn:C; cbn.
      * apply kept_comment; [apply comment_iff, C|apply IH; reflexivity].
      * apply kept_line; [rewrite comment_iff; congruence|apply IH; reflexivity].
Qed.
Lemma joined_join : forall l, joined_bytes l = byte_len (join crlf l).
Proof.
  induction l as [|x l IH]; [reflexivity|]. destruct l as [|y l]; [reflexivity|].
  change (joined_bytes (x :: y :: l)) with (byte_len x + 2 + joined_bytes (y :: l)).
  change (join crlf (x :: y :: l)) with (x ++ crlf ++ join crlf (y :: l)).
  rewrite IH, !byte_len_app. change (byte_len crlf) with 2. lia.
Qed.
(** The lines put together are those of a text again, up to a last empty one. *)
Lemma join_doc : forall l, Forall (fun x => ~ In 10 x) l ->
  exists d, doc_ok d /\ doc_text d = join crlf l /\ (doc_lines d = l \/ l = doc_lines d ++ [[]]).
Proof.
  intros l F. induction F as [|x l X F IH].
  - exists {| d_lines := []; d_last := [] |}. split; [split; [constructor|intros []]|]. split; [reflexivity|left; reflexivity].
  - destruct l as [|y l].
    + exists {| d_lines := []; d_last := x |}. split; [split; [constructor|exact X]|]. split; [reflexivity|].
      unfold doc_lines. cbn. destruct x; [right|left]; reflexivity.
    + destruct IH as (d & (D1 & D2) & T & Q). exists {| d_lines := (x, CRLF) :: d_lines d; d_last := d_last d |}.
      split; [split; [constructor; [split; [exact X|exact I]|exact D1]|exact D2]|]. split.
      * change (join crlf (x :: y :: l)) with (x ++ crlf ++ join crlf (y :: l)). rewrite <- T.
        unfold doc_text. cbn [d_lines d_last flat_map fst snd eol_text]. rewrite <- !app_assoc. reflexivity.
      * unfold doc_lines in *. cbn [d_lines d_last map fst app]. destruct Q as [Q|Q]; [left|right]; rewrite Q; reflexivity.
Qed.
Lemma lines_mean_blank_end : forall l ts, lines_mean (l ++ [[]]) ts <-> lines_mean l ts.
Proof.
  induction l as [|x l IH]; intros ts; cbn [app].
  - split; intro H.
    + inversion H as [|? ? ? _ K|? ? ? ? NB]; subst; [exact K|]. exfalso. apply NB. constructor.
    + apply lines_mean_blank; [constructor|exact H].
  - split; intro H; inversion H as [|? ? ? B K|? ? ? ? NB M K]; subst.
    + apply lines_mean_blank; [exact B|apply IH, K].
    + apply lines_mean_line; [exact NB|exact M|apply IH, K].
    + apply lines_mean_blank; [exact B|apply IH, K].
    + apply lines_mean_line; [exact NB|exact M|apply IH, K].
Qed.
Lemma doc_no_lf : forall d, doc_ok d -> Forall (fun x => ~ In 10 x) (doc_lines d).
Proof.
  intros [ls last] [F NL]. unfold doc_lines. cbn [d_lines d_last] in *. apply Forall_app. split.
  - apply Forall_map. eapply Forall_impl; [|exact F]. intros a [A _]. exact A.
  - destruct last; constructor; [exact NL|constructor].
Qed.
Lemma join_length : forall (p : str -> bool) d, doc_ok d ->
  (List.length (join crlf (filter p (doc_lines d))) <= 2 * List.length (doc_text d))%nat.
Proof.
  intros p [ls last] _. unfold doc_lines, doc_text. cbn [d_lines d_last].
  assert (J : forall x l, (List.length (join crlf (x :: l)) <= List.length x + 2 + List.length (join crlf l))%nat).
  { intros x l. destruct l as [|y l]; [cbn; lia|].
    change (join crlf (x :: y :: l)) with (x ++ crlf ++ join crlf (y :: l)). rewrite !app_length. cbn [crlf List.length]. lia. }
  induction ls as [|[x e] ls IH]; cbn [map fst snd flat_map app].
  - destruct last as [|c l]; [cbn; lia|]. cbn [filter]. destruct (p (c :: l)); cbn [join List.length]; lia.
  - cbn [filter]. assert (X : (1 <= List.length (eol_text e))%nat) by (destruct e; cbn; lia).
    rewrite !app_length in *. destruct (p x).
    + specialize (J x (filter p (map fst ls ++ match last with [] => [] | n :: l => [n :: l] end))). lia.
    + lia.
Qed.
Lemma good_iff : forall d, doc_ok d -> (Z.of_nat (List.length (doc_text d)) < 1073741824)%Z ->
  ((exists s, parse_sdp (join crlf (filter (fun l => negb (commentb l)) (doc_lines d))) true = Ok s) <-> file_good d).
Proof.
  intros d D L. pose proof (join_length (fun l => negb (commentb l)) d D) as JL.
  set (k := filter (fun l => negb (commentb l)) (doc_lines d)) in *.
  assert (F : Forall (fun x => ~ In 10 x) k).
  { apply Forall_forall. intros x I. apply filter_In in I. apply (proj1 (Forall_forall _ _) (doc_no_lf d D)), I. }
  destruct (join_doc k F) as (d' & D' & T & Q).
  assert (M : forall ts, lines_mean (doc_lines d') ts <-> lines_mean k ts).
  { intro ts. destruct Q as [->| ->]; [reflexivity|]. symmetry. apply lines_mean_blank_end. }
  assert (S' : short (List.length (doc_text d'))) by (unfold short; rewrite T; lia).
  rewrite <- T. split.
  - intros (s & P). apply (strict_document d' s D' S') in P. destruct P as (B & _ & ts & LM & L4 & A & St).
    exists k, ts, s. split; [apply kept_iff; reflexivity|]. split; [rewrite joined_join, <- T; exact B|].
    split; [apply M, LM|]. split; [exact L4|]. split; [exact A|exact St].
  - intros (k' & ts & s & K & B & LM & L4 & A & St). apply kept_iff in K. fold k in K. subst k'.
    exists (with_warnings s []). apply (strict_document d' _ D' S').
    split; [rewrite T, <- joined_join; exact B|]. split; [reflexivity|]. exists ts.
    split; [apply M, LM|]. split; [exact L4|]. split; [apply Assembles_warnings, A|apply (proj2 (PDoc2.structural_warnings s [])), St].
Qed.

Lemma exit_status : forall fs args c,
  (forall f t, fs f = Contents t -> (Z.of_nat (List.length t) < 1073741824)%Z) ->
  (exits fs args c <-> file_parser args fs = c).
Proof.
  intros fs args c L.
  assert (FL : forall x, expect_failure x <-> to_lower x = lit "--expect-failure") by (intro; apply means_iff; reflexivity).
  assert (FP : forall d f p, doc_ok d -> fs f = Contents (doc_text d) ->
    (file_good d -> file_parser [p; f] fs = 0) /\ (~ file_good d -> file_parser [p; f] fs = 101)).
  { intros d f p D Hf. pose proof (good_iff d D (L _ _ Hf)) as G. cbn [file_parser]. rewrite Hf.
    fold commentb. rewrite (lines_doc d D). change (fun l => negb (starts_with_char 59 (trim_start l))) with (fun l => negb (commentb l)).
    destruct (parse_sdp _ true) as [s|e|]; split; intro H; try reflexivity; exfalso.
    - apply H, G. eauto.
    - apply G in H. destruct H; discriminate.
    - apply G in H. destruct H; discriminate. }
  assert (FE : forall d f p x rest, doc_ok d -> fs f = Contents (doc_text d) -> expect_failure x ->
    (file_good d -> file_parser (p :: f :: x :: rest) fs = 1) /\ (~ file_good d -> file_parser (p :: f :: x :: rest) fs = 0)).
  { intros d f p x rest D Hf X. apply FL in X. pose proof (good_iff d D (L _ _ Hf)) as G. cbn [file_parser]. rewrite Hf.
    rewrite X, str_eqb_refl. cbn [negb].
    rewrite (lines_doc d D). change (fun l => negb (starts_with_char 59 (trim_start l))) with (fun l => negb (commentb l)).
    destruct (parse_sdp _ true) as [s|e|]; split; intro H; try reflexivity; exfalso.
    - apply H, G. eauto.
    - apply G in H. destruct H; discriminate.
    - apply G in H. destruct H; discriminate. }
  split.
  - intro X. inversion X as [args0 A|p f rest U|p f x rest t Hf NX|p f d D Hf G|p f d D Hf G|p f x rest d D Hf EX G|p f x rest d D Hf EX G]; subst.
    + destruct args as [|p [|f r]]; [reflexivity|reflexivity|cbn in A; lia].
    + cbn [file_parser]. destruct (fs f) as [| |t]; [reflexivity|reflexivity|exfalso; eapply U; reflexivity].
    + cbn [file_parser]. rewrite Hf. rewrite FL in NX. destruct (str_eqb_spec (to_lower x) (lit "--expect-failure")); [contradiction|reflexivity].
    + apply (FP d f p D Hf), G.
    + apply (FP d f p D Hf), G.
    + apply (FE d f p x rest D Hf EX), G.
    + apply (FE d f p x rest D Hf EX), G.
  - intros <-. destruct args as [|p [|f rest]]; [apply exits_no_file; cbn; lia|apply exits_no_file; cbn; lia|].
    destruct (fs f) as [| |t] eqn:Hf.
    + assert (X : file_parser (p :: f :: rest) fs = 101) by (cbn [file_parser]; rewrite Hf; reflexivity).
      rewrite X. apply exits_unreadable. rewrite Hf. discriminate.
    + assert (X : file_parser (p :: f :: rest) fs = 101) by (cbn [file_parser]; rewrite Hf; reflexivity).
      rewrite X. apply exits_unreadable. rewrite Hf. discriminate.
    + destruct (every_text_is_doc t) as (d & D & <-). pose proof (good_iff d D (L _ _ Hf)) as G.
      assert (GD : file_good d \/ ~ file_good d).
      { rewrite <- G. destruct (parse_sdp _ true) as [s|e|]; [left; eauto|right; intros (? & H); discriminate H|right; intros (? & H); discriminate H]. }
      destruct rest as [|x rest].
      * destruct GD as [GD|GD]; [rewrite (proj1 (FP d f p D Hf) GD); eapply exits_good; eassumption
                                |rewrite (proj2 (FP d f p D Hf) GD); eapply exits_bad; eassumption].
      * destruct (str_eqb_spec (to_lower x) (lit "--expect-failure")) as [EX|NX].
        -- apply FL in EX. destruct GD as [GD|GD];
             [rewrite (proj1 (FE d f p x rest D Hf EX) GD); eapply exits_unexpected_good; eassumption
             |rewrite (proj2 (FE d f p x rest D Hf EX) GD); eapply exits_expected_bad; eassumption].
        -- assert (X : file_parser (p :: f :: x :: rest) fs = 1).
           { cbn [file_parser]. rewrite Hf. destruct (str_eqb_spec (to_lower x) (lit "--expect-failure")); [contradiction|reflexivity]. }
           rewrite X. eapply exits_bad_flag; [exact Hf|]. rewrite FL. exact NX.
Qed.
End WithExt.

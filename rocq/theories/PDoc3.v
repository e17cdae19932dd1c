(** * Proofs: C37-C40, C43 *)
From Coq Require Import List NArith ZArith Bool Ascii String Lia Sorting.Sorted.
From Coq Require Import ZifyBool ZifyNat ZifyN.
From Verif Require Import Str Num Net Types Ext Show AttrParse Media Session
  StrLemmas NumLemmas SpecApi PApi SpecDoc PPanic PDoc PDoc2.
Import ListNotations.
Open Scope N_scope.
Open Scope list_scope.

Lemma trim_end_mid : forall x c v, is_ws c = false -> trim_end (x ++ c :: v) = x ++ c :: trim_end v.
Proof.
  intros x c v H. destruct (trim_end_suffix v) as [w [Hv Hw]].
  destruct (trim_end_cases v) as [K|K].
  - rewrite K in *. cbn in Hv. subst v. change (x ++ c :: w) with (x ++ [c] ++ w).
    rewrite app_assoc, trim_end_ws_app by auto. apply trim_end_id. exists x, c. auto.
  - rewrite Hv at 1. change (x ++ c :: trim_end v ++ w) with (x ++ (c :: trim_end v) ++ w).
    rewrite app_assoc, trim_end_ws_app by auto. apply trim_end_id. apply ends_ok_app. apply ends_ok_cons. auto.
Qed.
Lemma trim_mid : forall x c v, starts_ok (x ++ [c]) -> is_ws c = false -> trim (x ++ c :: v) = x ++ c :: trim_end v.
Proof.
  intros x c v S H. unfold trim. rewrite trim_start_id.
  - apply trim_end_mid; auto.
  - replace (x ++ c :: v) with ((x ++ [c]) ++ v) by (rewrite <- app_assoc; auto). apply starts_ok_app; auto.
Qed.
Lemma ws_not_eq : forall w, blank w -> contains c_eq w = false.
Proof.
  intros w H. apply contains_not_In. intros K. unfold blank in H. rewrite Forall_forall in H.
  apply H in K. discriminate.
Qed.

Section WithExt.
Context {E : Ext}.

(** ** C37 *)
Lemma lower_no_k : forall n s, to_lower n = s -> contains 107 s = false -> map ascii_lower n = s.
Proof.
  unfold to_lower. induction n as [|c n IH]; intros s H K; cbn [flat_map map] in *; auto.
  subst s. rewrite contains_app in K. apply orb_false_elim in K. destruct K as [K1 K2].
  rewrite (IH _ eq_refl K2). unfold lower_char in *. unfold ascii_lower.
  destruct ((65 <=? c) && (c <=? 90)); auto. destruct (c =? 8490); auto. discriminate.
Qed.

Definition table_names : list str := map (fun t => of_string (type_name t)) all_types.
Lemma parser_names : forallb (fun p => mem_str (fst p) table_names && negb (contains 107 (fst p))) attr_parsers = true.
Proof. vm_compute. reflexivity. Qed.
Lemma flag_names_known : forallb (fun p => mem_str p table_names && negb (contains 107 p)) flag_names = true.
Proof. vm_compute. reflexivity. Qed.
Lemma table_name : forall n s, unknown_name n -> to_lower n = s -> mem_str s table_names && negb (contains 107 s) = true -> False.
Proof.
  intros n s [_ [_ U]] H K. apply andb_true_iff in K. destruct K as [K1 K2]. apply negb_true_iff in K2.
  apply mem_str_In in K1. unfold table_names in K1. apply in_map_iff in K1. destruct K1 as [t [K1 _]].
  apply (U t). rewrite K1. apply lower_no_k; auto.
Qed.
Lemma unknown_lookup : forall n, unknown_name n ->
  assoc_str (to_lower n) attr_parsers = None /\ mem_str (to_lower n) flag_names = false.
Proof.
  intros n U. split.
  - destruct (assoc_str (to_lower n) attr_parsers) as [p|] eqn:K; auto. exfalso.
    apply assoc_str_In in K. pose proof parser_names as T. rewrite forallb_forall in T. apply T in K.
    eapply table_name; eauto.
  - destruct (mem_str (to_lower n) flag_names) eqn:K; auto. exfalso. apply mem_str_In in K.
    pose proof flag_names_known as T. rewrite forallb_forall in T. apply T in K. eapply table_name; eauto.
Qed.
Lemma unknown_token : forall n, unknown_name n -> token n /\ contains c_colon n = false.
Proof.
  intros n [H1 [H2 _]]. rewrite Forall_forall in H2. split; [split; auto|].
  - unfold no_ws. apply forallb_forall. intros c Hc. apply H2 in Hc. destruct Hc as [-> _]. auto.
  - apply contains_not_In. intros K. apply H2 in K. destruct K as [_ K]. apply K. reflexivity.
Qed.
Lemma unknown_attr : forall n rest, unknown_name n -> (rest = [] \/ exists v, rest = 58 :: v) ->
  exists e, attr_from_str (trim (n ++ rest)) = Err (EUnsupported e) /\ trim (n ++ rest) <> [].
Proof.
  intros n rest U R. destruct (unknown_lookup n U) as [L1 L2]. destruct (unknown_token n U) as [T C].
  assert (T' : starts_ok n) by (apply token_starts; auto).
  destruct R as [->|[v ->]].
  - rewrite app_nil_r, trim_id by (apply token_trimmed; auto). unfold attr_from_str. rewrite splitn2_none by auto.
    cbv zeta. cbn [idx nth_error bind List.length Nat.ltb Nat.leb andb]. rewrite L1. eexists. split; [reflexivity|].
    destruct T; auto.
  - change (58 :: v) with (c_colon :: v). rewrite trim_mid by (auto; apply starts_ok_app; auto).
    unfold attr_from_str. rewrite splitn2_app by auto. cbv zeta. cbn [idx nth_error bind List.length].
    rewrite L1, L2, andb_false_r. eexists. split; [reflexivity|]. destruct n; discriminate.
Qed.
Lemma unknown_line : forall n rest k, unknown_name n -> (rest = [] \/ exists v, rest = 58 :: v) ->
  let line := lit "a=" ++ n ++ rest in
  ~ blank line /\ exists e, parse_sdp_line line k = Err (PUnsupported (EUnsupported e) line k).
Proof.
  intros n rest k U R line. split.
  - intros B. unfold blank, line in B. inv B. discriminate.
  - destruct (unknown_attr n rest U R) as [e [H1 H2]]. exists e. unfold parse_sdp_line.
    unfold line. change (lit "a=" ++ n ++ rest) with ([97] ++ c_eq :: (n ++ rest)).
    replace (contains c_eq ([97] ++ c_eq :: (n ++ rest))) with true by (symmetry; apply contains_In; right; left; reflexivity).
    rewrite splitn2_app by reflexivity. cbv zeta. cbn [negb].
    change (trim [97]) with [97]. change (1 <? byte_len [97]) with false. cbn [is_empty].
    change (to_lower [97]) with [97]. apply is_empty_false in H2. rewrite H2. cbn [andb].
    change (parse_value [97] (trim (n ++ rest)) (n ++ rest)) with (parse_attribute (trim (n ++ rest))).
    unfold parse_attribute. rewrite trim_idem, H1. reflexivity.
Qed.

Lemma Reads_app : forall l1 l2 n ts ws, Reads n (l1 ++ l2) ts ws <->
  exists t1 t2 w1 w2, Reads n l1 t1 w1 /\ Reads (n + List.length l1) l2 t2 w2 /\ ts = t1 ++ t2 /\ ws = w1 ++ w2.
Proof.
  induction l1 as [|x l1 IH]; intros l2 n ts ws; cbn [app List.length].
  - rewrite Nat.add_0_r. split.
    + intros R. exists [], ts, [], ws. split; [constructor|]. auto.
    + intros [t1 [t2 [w1 [w2 [R1 [R2 [-> ->]]]]]]]. inv R1. auto.
  - replace (n + S (List.length l1))%nat with (S n + List.length l1)%nat by lia. split.
    + intros R. inv R; match goal with K : Reads _ _ _ _ |- _ => apply IH in K;
        destruct K as [t1 [t2 [w1 [w2 [R1 [R2 [-> ->]]]]]]] end.
      * exists t1, t2, w1, w2. split; [apply Reads_blank; auto|auto].
      * exists (l_type l :: t1), t2, w1, w2. split; [apply Reads_line; auto|auto].
      * exists t1, t2, (PUnsupported e x n :: w1), w2. split; [apply Reads_warning; auto|auto].
    + intros [t1 [t2 [w1 [w2 [R1 [R2 [-> ->]]]]]]]. inv R1.
      * apply Reads_blank; auto. apply IH. exists t1, t2, w1, w2. auto.
      * cbn [app]. apply Reads_line; auto. apply IH. exists ts, t2, w1, w2. auto.
      * cbn [app]. apply Reads_warning; auto. apply IH. exists t1, t2, ws, w2. auto.
Qed.
Lemma Reads_shift : forall n ls ts ws, Reads n ls ts ws -> Reads (S n) ls ts (map bump ws).
Proof.
  intros n ls ts ws R. induction R; cbn [map].
  - constructor.
  - apply Reads_blank; auto.
  - change (l_type l) with (l_type (renumber (S n) l)). apply Reads_line; auto.
    rewrite (line_renumber line n), H0. auto.
  - apply Reads_warning; auto. rewrite (line_renumber line n), H0. auto.
Qed.
Lemma insert_unknown : forall pre post last name rest e s,
  doc_ok {| d_lines := pre ++ post; d_last := last |} ->
  unknown_name name -> (rest = [] \/ exists v, rest = 58 :: v) ->
  let line := lit "a=" ++ name ++ rest in
  line_ok (line, e) ->
  parse_sdp (doc_text {| d_lines := pre ++ post; d_last := last |}) false = Ok s ->
  exists w1 w2 err, s_warnings s = w1 ++ w2 /\
    parse_sdp (doc_text {| d_lines := pre ++ (line, e) :: post; d_last := last |}) false =
      Ok (with_warnings s (w1 ++ PUnsupported err line (List.length pre) :: map bump w2)).
Proof.
  intros pre post last name rest e s D U R line LO H. apply document in H.
  destruct H as [B [ts [ws [Rd [HW [_ [L4 [A St]]]]]]]]. rewrite lines_doc in Rd by auto.
  destruct D as [D1 D2]. cbn [d_lines d_last] in *.
  assert (D' : doc_ok {| d_lines := pre ++ (line, e) :: post; d_last := last |}).
  { split; auto. cbn [d_lines]. apply Forall_app in D1. destruct D1. apply Forall_app. split; auto. }
  unfold doc_lines in Rd. cbn [d_lines d_last] in Rd. rewrite map_app, <- app_assoc in Rd.
  apply Reads_app in Rd. destruct Rd as [t1 [t2 [w1 [w2 [R1 [R2 [-> ->]]]]]]].
  destruct (unknown_line name rest (List.length pre) U R) as [NB [err PL]]. fold line in NB, PL.
  exists w1, w2, (EUnsupported err). split; auto. apply document. split.
  - unfold doc_text in *. cbn [d_lines d_last] in *. rewrite flat_map_app in *. cbn [flat_map].
    rewrite !byte_len_app in *. lia.
  - exists (t1 ++ t2), (w1 ++ PUnsupported (EUnsupported err) line (List.length pre) :: map bump w2).
    split; [|repeat split; auto; try discriminate].
    + rewrite lines_doc by auto. unfold doc_lines. cbn [d_lines d_last]. rewrite map_app, <- app_assoc.
      apply Reads_app. exists t1, t2, w1, (PUnsupported (EUnsupported err) line (List.length pre) :: map bump w2).
      split; auto. split; [|auto]. rewrite map_length in *. cbn [Nat.add map app] in *.
      apply Reads_warning; auto. apply Reads_shift. auto.
    + destruct St; auto.
    + destruct St; auto.
    + destruct St; auto.
    + destruct St; auto.
Qed.

(** ** C38 *)
Fixpoint chunks (l : list sdp_type) : list sdp_type * list section :=
  match l with
  | [] => ([], [])
  | TyMedia m :: r => let '(b, ss) := chunks r in ([], (m, b) :: ss)
  | t :: r => let '(b, ss) := chunks r in (t :: b, ss)
  end.
Lemma chunks_body : forall b l, Forall (fun t => ~ is_media t) b ->
  chunks (b ++ l) = (b ++ fst (chunks l), snd (chunks l)).
Proof.
  induction b as [|t b IH]; intros l F; cbn [app chunks]; [destruct (chunks l); auto|].
  inv F. rewrite (IH l) by auto. destruct t; auto. exfalso. apply H1. eexists; eauto.
Qed.
Lemma chunks_secs : forall ss b, Forall (fun t => ~ is_media t) b ->
  Forall (fun s => Forall (fun t => ~ is_media t) (snd s)) ss ->
  chunks (b ++ flat_map section_lines ss) = (b, ss).
Proof.
  induction ss as [|[m c] ss IH]; intros b Fb F; rewrite chunks_body by auto; cbn [flat_map section_lines fst snd app].
  - cbn. rewrite app_nil_r. auto.
  - inv F. cbn [chunks]. rewrite IH by auto. cbn. rewrite app_nil_r. auto.
Qed.
Lemma chunks_split : forall a m b, chunks (a ++ TyMedia m :: b) =
  (fst (chunks a), snd (chunks a) ++ snd (chunks (TyMedia m :: b))).
Proof.
  induction a as [|t a IH]; intros m b; cbn [app].
  - cbn [chunks]. destruct (chunks b); auto.
  - destruct t; cbn [chunks]; rewrite IH; destruct (chunks a); auto.
Qed.
Lemma session_item_not_media : forall l, Forall session_item l -> Forall (fun t => ~ is_media t) l.
Proof. intros l F. eapply Forall_impl; [|exact F]. intros t H [m ->]. contradiction. Qed.
Lemma section_not_media : forall l, Forall section_ok l -> Forall (fun s => Forall (fun t => ~ is_media t) (snd s)) l.
Proof.
  intros l F. eapply Forall_impl; [|exact F]. intros [m b] [H _]. eapply Forall_impl; [|exact H].
  intros t K [x ->]. contradiction.
Qed.
(** What a session is, computed from the lines. *)
Lemma assembled_chunks : forall l s, s_warnings s = [] -> Assembles l s ->
  exists v o name r, l = TyVersion v :: TyOrigin o :: TySession name :: r /\
    s = assembled v o name (fst (chunks r)) (snd (chunks r)).
Proof.
  intros l s W A. apply Assembles_iff in A; auto.
  destruct A as [v [o [name [head [secs [H1 [F1 [F2 ->]]]]]]]]. exists v, o, name, (head ++ flat_map section_lines secs).
  split; auto. rewrite chunks_secs; auto using session_item_not_media, section_not_media.
Qed.
Lemma sections_independent : forall pre m1 b1 m2 b2 post s1 s2,
  Forall (fun t => ~ is_media t) b1 -> Forall (fun t => ~ is_media t) b2 ->
  (post = [] \/ exists m p, post = TyMedia m :: p) ->
  Assembles (pre ++ TyMedia m1 :: b1 ++ post) s1 -> Assembles (pre ++ TyMedia m2 :: b2 ++ post) s2 ->
  with_session_media s1 [] = with_session_media (with_warnings s2 (s_warnings s1)) [] /\
  exists before after,
    s_media s1 = before ++ section_media (m1, b1) :: after /\
    s_media s2 = before ++ section_media (m2, b2) :: after /\
    List.length before = List.length (filter (fun t => match t with TyMedia _ => true | _ => false end) pre).
Proof.
  assert (CL : forall a, List.length (snd (chunks a)) = List.length (filter (fun t => match t with TyMedia _ => true | _ => false end) a)).
  { induction a as [|t a IH]; auto. destruct t; cbn [chunks filter]; destruct (chunks a); cbn [snd List.length] in *; auto. }
  intros pre m1 b1 m2 b2 post s1 s2 F1 F2 P A1 A2.
  apply (Assembles_warnings _ _ []) in A1, A2.
  apply assembled_chunks in A1; [|reflexivity]. apply assembled_chunks in A2; [|reflexivity].
  destruct A1 as [v [o [name [r [H1 S1]]]]], A2 as [v' [o' [name' [r' [H2 S2]]]]].
  assert (PC : fst (chunks post) = []) by (destruct P as [->|[m [p ->]]]; cbn; auto; destruct (chunks p); auto).
  assert (SC : forall m b, Forall (fun t => ~ is_media t) b -> snd (chunks (TyMedia m :: b ++ post)) = (m, b) :: snd (chunks post)).
  { intros m b F. cbn [chunks]. rewrite chunks_body by auto. rewrite PC, app_nil_r. auto. }
  assert (X : exists p3, pre = TyVersion v :: TyOrigin o :: TySession name :: p3 /\ v' = v /\ o' = o /\ name' = name /\
     r = p3 ++ TyMedia m1 :: b1 ++ post /\ r' = p3 ++ TyMedia m2 :: b2 ++ post).
  { destruct pre as [|x0 pre]; [discriminate|]. cbn [app] in H1, H2. inversion H1; inversion H2; subst.
    destruct pre as [|x1 pre]; [discriminate|]. cbn [app] in *. inversion H3; inversion H5; subst.
    destruct pre as [|x2 pre]; [discriminate|]. cbn [app] in *.
    repeat match goal with K : _ :: _ = _ :: _ |- _ => inversion K; clear K; subst end.
    repeat match goal with K : TyVersion _ = TyVersion _ |- _ => inversion K; clear K; subst end.
    exists pre. repeat split; auto. }
  destruct X as [p3 [-> [-> [-> [-> [-> ->]]]]]].
  rewrite chunks_split in S1, S2. rewrite SC in S1, S2 by auto. cbn [fst snd] in S1, S2.
  set (h := fst (chunks p3)) in *. set (ss := snd (chunks p3)) in *. set (ps := snd (chunks post)) in *.
  destruct s1, s2. unfold with_warnings, assembled in S1, S2. cbn in S1, S2. inversion S1; inversion S2; subst.
  split; [reflexivity|]. exists (map section_media ss), (map section_media ps). cbn.
  rewrite !map_app. cbn [map]. repeat split; auto. rewrite map_length. unfold ss. apply CL.
Qed.

Lemma Reads_types : forall n ls ts ws, Reads n ls ts ws -> forall m ts' ws', Reads m ls ts' ws' -> ts = ts'.
Proof.
  intros n ls ts ws R. induction R; intros m ts' ws' R'; inv R'; try contradiction; auto.
  - eapply IHR; eauto.
  - f_equal; [|eapply IHR; eauto]. rewrite (line_renumber line n m), H0 in *.
    match goal with K : Ok _ = Ok _ |- _ => inv K end. auto.
  - rewrite (line_renumber line n m), H0 in *. discriminate.
  - rewrite (line_renumber line n m), H0 in *. discriminate.
  - eapply IHR; eauto.
Qed.
Lemma media_line_type : forall line n l, ~ blank line -> parse_sdp_line line n = Ok l ->
  (line_is_media line <-> is_media (l_type l)).
Proof.
  intros line n l B H. unfold line_is_media. rewrite (line_renumber line n), H. split.
  - intros [_ [l' [K1 K2]]]. inv K1. auto.
  - intros K. split; auto. eexists. split; [reflexivity|]. auto.
Qed.
Lemma Reads_media : forall n line r ts ws, line_is_media line -> Reads n (line :: r) ts ws ->
  exists m ts', ts = TyMedia m :: ts' /\ Reads (S n) r ts' ws /\
  (exists l, parse_sdp_line line 0 = Ok l /\ l_type l = TyMedia m).
Proof.
  intros n line r ts ws [B [l [H [m M]]]] R. inv R; try contradiction.
  - rewrite (line_renumber line 0 n), H in *. match goal with K : Ok _ = Ok _ |- _ => inv K end.
    cbn. rewrite M. eauto 8.
  - rewrite (line_renumber line 0 n), H in *. discriminate.
Qed.
Lemma Reads_not_media : forall ls n ts ws, Forall (fun x => ~ line_is_media x) ls -> Reads n ls ts ws ->
  Forall (fun t => ~ is_media t) ts.
Proof.
  intros ls n ts ws F R. induction R; auto; inv F; auto. constructor; auto.
  intros K. apply H3. eapply media_line_type; eauto.
Qed.
Lemma sections_text : forall sdp1 sdp2 b1 b2 A m1 X1 m2 X2 B s1 s2,
  lines sdp1 = A ++ m1 :: X1 ++ B -> lines sdp2 = A ++ m2 :: X2 ++ B ->
  line_is_media m1 -> line_is_media m2 ->
  Forall (fun x => ~ line_is_media x) X1 -> Forall (fun x => ~ line_is_media x) X2 ->
  (B = [] \/ exists m p, B = m :: p /\ line_is_media m) ->
  parse_sdp sdp1 b1 = Ok s1 -> parse_sdp sdp2 b2 = Ok s2 ->
  with_session_media s1 [] = with_session_media (with_warnings s2 (s_warnings s1)) [] /\
  exists before x1 x2 after,
    s_media s1 = before ++ x1 :: after /\ s_media s2 = before ++ x2 :: after /\
    (exists l, parse_sdp_line m1 0 = Ok l /\ l_type l = TyMedia (m_media x1)) /\
    (exists l, parse_sdp_line m2 0 = Ok l /\ l_type l = TyMedia (m_media x2)).
Proof.
  intros sdp1 sdp2 b1 b2 A m1 X1 m2 X2 B s1 s2 L1 L2 M1 M2 F1 F2 HB P1 P2.
  apply document in P1, P2. destruct P1 as [_ [ts1 [ws1 [R1 [_ [_ [_ [A1 _]]]]]]]], P2 as [_ [ts2 [ws2 [R2 [_ [_ [_ [A2 _]]]]]]]].
  rewrite L1 in R1. rewrite L2 in R2. apply Reads_app in R1, R2.
  destruct R1 as [ta [tr [wa [wr [R1 [Q1 [-> ->]]]]]]], R2 as [ta' [tr' [wa' [wr' [R2 [Q2 [-> ->]]]]]]].
  assert (ta' = ta) by (eapply Reads_types; eauto). subst ta'.
  apply Reads_media in Q1; auto. apply Reads_media in Q2; auto.
  destruct Q1 as [n1 [tx [-> [Q1 T1]]]], Q2 as [n2 [tx' [-> [Q2 T2]]]].
  apply Reads_app in Q1, Q2.
  destruct Q1 as [tb [tp [wb [wp [Q1 [O1 [-> ->]]]]]]], Q2 as [tb' [tp' [wb' [wp' [Q2 [O2 [-> ->]]]]]]].
  assert (tp' = tp) by (eapply Reads_types; eauto). subst tp'.
  assert (HP : tp = [] \/ exists m p, tp = TyMedia m :: p).
  { destruct HB as [->|[m [p [-> Hm]]]]; [left; inv O1; auto|right].
    apply Reads_media in O1; auto. destruct O1 as [? [? [-> _]]]. eauto. }
  destruct (sections_independent ta n1 tb n2 tb' tp s1 s2) as [S1 [bf [af [S2 [S3 _]]]]]; auto.
  - exact (Reads_not_media _ _ _ _ F1 Q1).
  - exact (Reads_not_media _ _ _ _ F2 Q2).
  - split; auto. exists bf, (section_media (n1, tb)), (section_media (n2, tb')), af. auto.
Qed.

(** ** C39 *)
Lemma trim_pad3 : forall w1 t w2, blank w1 -> blank w2 -> trim (w1 ++ t ++ w2) = trim t.
Proof. intros. apply trim_pad; apply blank_forallb; auto. Qed.
Lemma padded_line : forall w1 t w2 w3 v w4 n, ~ In 61 t -> blank w1 -> blank w2 -> blank w3 -> blank w4 ->
  match parse_sdp_line (w1 ++ t ++ w2 ++ [61] ++ w3 ++ v ++ w4) n, parse_sdp_line (t ++ [61] ++ v) n with
  | Ok a, Ok b => l_number a = l_number b /\ same_type (l_type a) (l_type b)
  | Err a, Err b => erase_text a = erase_text b /\ inner a = inner b
  | Panic, Panic => True
  | _, _ => False
  end.
Proof.
  intros w1 t w2 w3 v w4 n Ht B1 B2 B3 B4.
  assert (Ct : contains c_eq t = false) by (apply contains_not_In; auto).
  replace (w1 ++ t ++ w2 ++ [61] ++ w3 ++ v ++ w4) with ((w1 ++ t ++ w2) ++ c_eq :: (w3 ++ v ++ w4))
    by (rewrite <- !app_assoc; reflexivity).
  change (t ++ [61] ++ v) with (t ++ c_eq :: v). unfold parse_sdp_line.
  replace (contains c_eq ((w1 ++ t ++ w2) ++ c_eq :: w3 ++ v ++ w4)) with true
    by (symmetry; apply contains_In, in_app_iff; right; left; auto).
  replace (contains c_eq (t ++ c_eq :: v)) with true
    by (symmetry; apply contains_In, in_app_iff; right; left; auto).
  rewrite !splitn2_app by (auto; rewrite !contains_app, Ct, !ws_not_eq by auto; auto). cbn [negb]. cbv zeta.
  rewrite !trim_pad3 by auto.
  destruct (1 <? byte_len (trim t)); [cbn; auto|]. destruct (is_empty (trim t)); [cbn; auto|].
  destruct (_ && _); [cbn; auto|].
  assert (PV : forall lt tv, parse_value lt tv (w3 ++ v ++ w4) = parse_value lt tv v \/
    (parse_value lt tv (w3 ++ v ++ w4) = Ok (TySession (w3 ++ v ++ w4)) /\ parse_value lt tv v = Ok (TySession v))).
  { intros. unfold parse_value.
    repeat match goal with |- context [if str_eqb lt ?y then _ else _] => destruct (str_eqb lt y); [auto|] end. auto. }
  destruct (PV (to_lower (trim t)) (trim v)) as [->|[-> ->]].
  - destruct (parse_value _ _ _) as [ty|e|]; cbn; auto; [split; [auto|left; auto]|].
    destruct e; cbn; auto.
  - cbn. split; auto. right. exists (w3 ++ v ++ w4), v. rewrite trim_pad3; auto.
Qed.
Lemma padded_blank : forall x y, padded x y -> (blank x <-> blank y).
Proof.
  intros x y [->|[w1 [t [w2 [w3 [v [w4 [_ [_ [_ [_ [_ [-> ->]]]]]]]]]]]]]; [tauto|].
  split; intros H; exfalso; unfold blank in H; rewrite Forall_forall in H;
    (assert (K : is_ws 61 = true); [apply H|discriminate]); repeat (rewrite in_app_iff); cbn; auto 10.
Qed.
Lemma padded_result : forall x y n, padded x y ->
  match parse_sdp_line x n, parse_sdp_line y n with
  | Ok a, Ok b => l_number a = l_number b /\ same_type (l_type a) (l_type b)
  | Err a, Err b => erase_text a = erase_text b
  | Panic, Panic => True
  | _, _ => False
  end.
Proof.
  intros x y n [->|[w1 [t [w2 [w3 [v [w4 [H [H1 [H2 [H3 [H4 [-> ->]]]]]]]]]]]]].
  - destruct (parse_sdp_line y n); auto. split; [auto|left; auto].
  - pose proof (padded_line w1 t w2 w3 v w4 n H H1 H2 H3 H4) as K.
    destruct (parse_sdp_line _ n), (parse_sdp_line (t ++ [61] ++ v) n); auto. tauto.
Qed.
Definition same_line (a b : sdp_line) : Prop := l_number a = l_number b /\ same_type (l_type a) (l_type b).
Lemma scan_padded : forall l1 l2, Forall2 padded l1 l2 -> forall n L H W, Scan n l1 L H W ->
  exists L' H' W', Scan n l2 L' H' W' /\ Forall2 same_line L L' /\ map erase_text H = map erase_text H' /\
    map erase_text W = map erase_text W'.
Proof.
  intros l1 l2 F. induction F as [|x y l1 l2 P F IH]; intros n L H W S.
  - inv S. exists [], [], []. repeat split; constructor.
  - pose proof (padded_blank _ _ P) as PB. pose proof (padded_result _ _ n P) as PR.
    inv S; match goal with K : Scan _ l1 _ _ _ |- _ => destruct (IH _ _ _ _ K) as [L' [H' [W' [S' [Q1 [Q2 Q3]]]]]] end.
    + exists L', H', W'. split; [apply Scan_blank; tauto|auto].
    + match goal with K : parse_sdp_line x n = Ok _ |- _ => rewrite K in PR end.
      destruct (parse_sdp_line y n) as [l'|e'|] eqn:PY; try contradiction.
      exists (l' :: L'), H', W'. split; [apply Scan_ok; tauto|]. split; [constructor; auto|auto].
    + match goal with K : parse_sdp_line x n = Err _ |- _ => rewrite K in PR end.
      destruct (parse_sdp_line y n) as [l'|e'|] eqn:PY; try contradiction.
      destruct (line_err _ _ _ PY) as [[z ->]|[z ->]]; [|discriminate].
      exists L', H', (PUnsupported z y n :: W'). split; [apply Scan_warn; tauto|]. split; auto. split; auto.
      cbn [map]. congruence.
    + match goal with K : parse_sdp_line x n = Err _ |- _ => rewrite K in PR end.
      destruct (parse_sdp_line y n) as [l'|e'|] eqn:PY; try contradiction.
      destruct (line_err _ _ _ PY) as [[z ->]|[z ->]]; [discriminate|].
      exists L', (PLine z y n :: H'), W'. split; [apply Scan_hard; tauto|]. split; auto. split; auto.
      cbn [map]. congruence.
Qed.
Lemma same_type_cases : forall a b, same_type a b ->
  a = b \/ exists x y, a = TySession x /\ b = TySession y /\ trim x = trim y.
Proof. auto. Qed.
Lemma session_vector_same : forall l1 l2, Forall2 same_line l1 l2 -> forall s,
  parse_session_vector s l1 = parse_session_vector s l2.
Proof.
  intros l1 l2 F. induction F as [|x y l1 l2 [N T] F IH]; intros s; auto. cbn [parse_session_vector].
  rewrite <- N. destruct T as [T|[a [b [T1 [T2 _]]]]].
  - rewrite <- T. destruct (l_type x); auto. destruct (session_add_attribute a s) as [? []]; auto.
  - rewrite T1, T2. auto.
Qed.
Lemma media_loop_same : forall l1 l2, Forall2 same_line l1 l2 -> forall d m,
  media_loop d m l1 = media_loop d m l2.
Proof.
  intros l1 l2 F. induction F as [|x y l1 l2 [N T] F IH]; intros d m; auto. cbn [media_loop].
  rewrite <- N. destruct T as [T|[a [b [T1 [T2 _]]]]].
  - rewrite <- T. destruct (l_type x); auto.
    + destruct (media_line_attribute a m) as [? []]; auto.
    + destruct (m_connection m); auto.
  - rewrite T1, T2. auto.
Qed.
Lemma split_at_media_same : forall l1 l2, Forall2 same_line l1 l2 ->
  Forall2 same_line (fst (split_at_media l1)) (fst (split_at_media l2)) /\
  Forall2 same_line (snd (split_at_media l1)) (snd (split_at_media l2)).
Proof.
  intros l1 l2 F. induction F as [|x y l1 l2 [N T] F IH]; [split; constructor|]. cbn [split_at_media].
  assert (M : is_media_line y = is_media_line x).
  { unfold is_media_line. destruct T as [T|[a [b [T1 [T2 _]]]]]; [rewrite T|rewrite T1, T2]; auto. }
  rewrite M. destruct (is_media_line x).
  - split; constructor; auto. split; auto.
  - destruct (split_at_media l1), (split_at_media l2). cbn [fst snd] in *. destruct IH. split; auto.
    constructor; auto. split; auto.
Qed.
Lemma Forall2_len : forall A B (R : A -> B -> Prop) l1 l2, Forall2 R l1 l2 -> List.length l1 = List.length l2.
Proof. intros A B R l1 l2 F. induction F; cbn; auto. Qed.
Lemma vector_same : forall l1 l2, Forall2 same_line l1 l2 -> parse_sdp_vector l1 = parse_sdp_vector l2.
Proof.
  intros l1 l2 F. pose proof (Forall2_len _ _ _ _ _ F) as LL. unfold parse_sdp_vector. rewrite <- LL.
  destruct (Nat.ltb_spec (List.length l1) 4); auto.
  destruct F as [|x0 y0 ? ? [N0 T0] F]; [cbn in *; lia|]. destruct F as [|x1 y1 ? ? [N1 T1] F]; [cbn in *; lia|].
  destruct F as [|x2 y2 l1 l2 [N2 T2] F]; [cbn in *; lia|].
  cbn [idx nth_error bind skipn].
  assert (X0 : l_type y0 = l_type x0 \/ exists a b, l_type x0 = TySession a /\ l_type y0 = TySession b).
  { destruct T0 as [->|[a [b [-> [-> _]]]]]; eauto. }
  destruct X0 as [->|[a [b [-> ->]]]]; auto. destruct (l_type x0); auto.
  assert (X1 : l_type y1 = l_type x1 \/ exists a b, l_type x1 = TySession a /\ l_type y1 = TySession b).
  { destruct T1 as [->|[a [b [-> [-> _]]]]]; eauto. }
  cbn [idx nth_error bind skipn].
  destruct X1 as [->|[a [b [-> ->]]]]; auto. destruct (l_type x1); auto.
  cbn [idx nth_error bind skipn].
  destruct (split_at_media_same _ _ F) as [S1 S2]. destruct (split_at_media l1) as [h1 t1], (split_at_media l2) as [h2 t2].
  cbn [fst snd] in *.
  assert (X2 : forall name s0, match t1 with
     | [] => keep (parse_session_vector (session_new v o name) h1)
     | _ :: _ => s <- keep (parse_session_vector (session_new v o name) h1) ;; ms <- parse_media_vector t1 ;; Ok (session_extend_media ms s)
     end = s0 -> match t2 with
     | [] => keep (parse_session_vector (session_new v o name) h2)
     | _ :: _ => s <- keep (parse_session_vector (session_new v o name) h2) ;; ms <- parse_media_vector t2 ;; Ok (session_extend_media ms s)
     end = s0).
  { intros name s0 <-. rewrite (session_vector_same _ _ S1). destruct S2 as [|a b t1 t2 [NN TT] S2]; auto.
    destruct (keep _); auto. cbn [bind parse_media_vector]. rewrite <- NN.
    destruct TT as [TT|[p [q [TT1 [TT2 _]]]]]; [rewrite <- TT|rewrite TT1, TT2; auto].
    destruct (l_type a); auto. rewrite (media_loop_same _ _ S2). auto. }
  destruct T2 as [T2|[a [b [T2 [T2' T2'']]]]].
  - rewrite <- T2. destruct (l_type x2); auto. cbv zeta. rewrite (X2 s _ eq_refl). auto.
  - rewrite T2, T2'. cbv zeta. replace (session_new v o b) with (session_new v o a)
      by (unfold session_new; rewrite T2''; auto). rewrite (X2 a _ eq_refl). auto.
Qed.
Lemma padded_document : forall sdp1 sdp2 b, 51 <= byte_len sdp1 -> 51 <= byte_len sdp2 ->
  Forall2 padded (lines sdp1) (lines sdp2) ->
  erase_text_result (parse_sdp sdp1 b) = erase_text_result (parse_sdp sdp2 b).
Proof.
  intros sdp1 sdp2 b B1 B2 F.
  assert (LE : forall H, last_error (map erase_text H) = option_map erase_text (last_error H)).
  { intros H. unfold last_error. rewrite <- map_rev. destruct (rev H); auto. }
  destruct (parse_cases sdp1 B1) as [[L [H [W S]]]|P].
  - destruct (scan_padded _ _ F _ _ _ _ S) as [L' [H' [W' [S' [Q1 [Q2 Q3]]]]]].
    rewrite (parse_scan _ _ _ _ _ B1 S), (parse_scan _ _ _ _ _ B2 S'). unfold finish.
    rewrite (vector_same _ _ Q1).
    pose proof (LE H) as E1. pose proof (LE H') as E2. rewrite Q2 in E1. rewrite E1 in E2. clear E1.
    assert (X : erase_text_result match last_error H with
        | Some e => Err e | None => s <- parse_sdp_vector L' ;; Ok (session_with_warnings W s) end =
      erase_text_result match last_error H' with
        | Some e => Err e | None => s <- parse_sdp_vector L' ;; Ok (session_with_warnings W' s) end).
    { destruct (last_error H), (last_error H'); try discriminate.
      - cbn. cbn in E2. congruence.
      - destruct (parse_sdp_vector L') as [s|e|]; cbn; auto. unfold with_warnings, session_with_warnings. cbn. rewrite Q3. auto. }
    destruct b; auto. destruct W, W'; try discriminate; auto. cbn in Q3. inv Q3. cbn. congruence.
  - destruct (parse_cases sdp2 B2) as [[L [H [W S]]]|P2]; [|rewrite P, P2; auto].
    exfalso.
    assert (X : forall l1 l2, Forall2 padded l1 l2 -> forall n L H W, Scan n l2 L H W -> exists L' H' W', Scan n l1 L' H' W').
    { clear. intros l1 l2 F. induction F as [|x y l1 l2 P F IH]; intros n L H W S; [exists [], [], []; constructor|].
      pose proof (padded_blank _ _ P) as PB. pose proof (padded_result _ _ n P) as PR.
      destruct (blank_dec x) as [BX|BX].
      - inv S; try tauto. match goal with K : Scan _ l2 _ _ _ |- _ => destruct (IH _ _ _ _ K) as [L' [H' [W' S']]] end. exists L', H', W'. apply Scan_blank; auto.
      - assert (S0 : exists L H W, Scan (Datatypes.S n) l2 L H W) by (inv S; eauto).
        destruct S0 as [L0 [H0 [W0 S0]]]. destruct (IH _ _ _ _ S0) as [L' [H' [W' S']]].
        destruct (parse_sdp_line x n) as [l|e|] eqn:PX.
        + exists (l :: L'), H', W'. apply Scan_ok; auto.
        + destruct (line_err _ _ _ PX) as [[z ->]|[z ->]].
          * exists L', H', (PUnsupported z x n :: W'). apply Scan_warn; auto.
          * exists L', (PLine z x n :: H'), W'. apply Scan_hard; auto.
        + exfalso. destruct (parse_sdp_line y n) eqn:PY; try contradiction.
          inv S; try tauto; congruence. }
    destruct (X _ _ F _ _ _ _ S) as [L' [H' [W' S']]]. specialize (P false).
    rewrite (parse_scan _ _ _ _ _ B1 S') in P. unfold finish in P. destruct (last_error H'); [discriminate|].
    destruct (parse_sdp_vector L') eqn:V; try discriminate. apply vector_np in V. contradiction.
Qed.

(** ** C40 *)
Lemma value_types : forall t v raw ty, parse_value t v raw = Ok ty ->
  exists c, t = [c] /\ In c known_types.
Proof.
  intros t v raw ty. unfold parse_value.
  repeat match goal with |- (if str_eqb t ?l then _ else _) = _ -> _ =>
    let K := fresh in destruct (str_eqb_spec t l) as [K|K];
      [first [discriminate | intros _; exists (hd 0 l); split; [exact K|cbn; auto 10]]|clear K] end.
  discriminate.
Qed.
Lemma value_unsupported : forall t v raw e, parse_value t v raw = Err (EUnsupported e) ->
  exists c, t = [c] /\ In c known_types.
Proof.
  intros t v raw e. unfold parse_value.
  repeat match goal with |- (if str_eqb t ?l then _ else _) = _ -> _ =>
    let K := fresh in destruct (str_eqb_spec t l) as [K|K];
      [first [discriminate | intros _; exists (hd 0 l); split; [exact K|cbn; auto 10]]|clear K] end.
  discriminate.
Qed.
Lemma ascii_lower_char : forall c, byte_len [c] <= 1 -> to_lower [c] = [ascii_lower c].
Proof.
  intros c H. unfold to_lower, lower_char, ascii_lower. cbn in H. unfold utf8_len in H. cbn [flat_map].
  destruct ((65 <=? c) && (c <=? 90)); auto.
  destruct (N.eqb_spec c 8490) as [->|]; auto. vm_compute in H. destruct H; auto.
Qed.
(** A line that parses or is unsupported has one of the known types. *)
Lemma line_type_known : forall line n, 
  (forall e, parse_sdp_line line n <> Err (PLine e line n)) -> parse_sdp_line line n <> Panic ->
  exists c, has_type line c /\ In (ascii_lower c) known_types.
Proof.
  intros line n H NP. unfold parse_sdp_line in H, NP.
  destruct (contains c_eq line) eqn:C; cbn [negb] in H, NP; [|exfalso; eapply H; eauto].
  destruct (splitn2_cases c_eq line) as [[K _]|[a [v [HL [Ha HS]]]]]; [congruence|]. rewrite HS in H, NP. cbv zeta in H, NP.
  destruct (N.ltb_spec 1 (byte_len (trim a))) as [B|B]; [exfalso; eapply H; eauto|].
  destruct (trim a) as [|c r] eqn:T; cbn [is_empty] in H, NP; [exfalso; eapply H; eauto|].
  assert (r = []).
  { destruct r as [|c2 r]; auto. exfalso. pose proof (byte_len_length (c :: c2 :: r)) as Q. cbn [List.length] in Q. lia. }
  subst r. rewrite ascii_lower_char in H, NP by auto.
  destruct (trim_decompose a) as [w1 [w2 [D1 [D2 D3]]]]. rewrite T in D1.
  assert (WS : is_ws c = false).
  { destruct (trim_cases a) as [K|[[c' [s' [K1 K2]]] _]]; rewrite T in *; [discriminate|]. inv K1. auto. }
  exists c. split.
  - exists w1, w2, v. subst line. rewrite D1. split; [rewrite <- !app_assoc; reflexivity|].
    split; [apply blank_forallb; auto|]. split; [apply blank_forallb; auto|]. split; auto. intros ->.
    apply contains_not_In in Ha. apply Ha. rewrite D1. apply in_app_iff. right. left. auto.
  - destruct (_ && _) in H, NP; [exfalso; eapply H; eauto|].
    destruct (parse_value [ascii_lower c] (trim v) v) as [ty|e|] eqn:P; [| |congruence].
    + apply value_types in P. destruct P as [c' [P1 P2]]. inv P1. auto.
    + destruct e; try (exfalso; eapply H; reflexivity).
      apply value_unsupported in P. destruct P as [c' [P1 P2]]. inv P1. auto.
Qed.
Lemma has_type_unique : forall line c c', has_type line c -> has_type line c' -> c = c'.
Proof.
  intros line c c' [w1 [w2 [v [H1 [B1 [B2 [W N]]]]]]] [w1' [w2' [v' [H1' [B1' [B2' [W' N']]]]]]].
  assert (X : forall u x r u' x' r', blank u -> blank u' -> is_ws x = false -> is_ws x' = false ->
    u ++ x :: r = u' ++ x' :: r' -> x = x').
  { induction u as [|a u IH]; intros x r u' x' r' Bu Bu' Wx Wx' K; destruct u' as [|a' u']; cbn [app] in K; inversion K; subst; auto.
    - inv Bu'. congruence.
    - inv Bu. congruence.
    - inv Bu. inv Bu'. eapply IH; eauto. }
  subst line. eapply X; [exact B1|exact B1'|exact W|exact W'|exact H1'].
Qed.
Lemma unknown_type_line : forall line c n, has_type line c -> ~ In (ascii_lower c) known_types ->
  exists e, parse_sdp_line line n = Err (PLine e line n).
Proof.
  intros line c n H N.
  destruct (parse_sdp_line line n) as [l|e|] eqn:P.
  - exfalso. destruct (line_type_known line n) as [c' [K1 K2]]; [intros e K; congruence|congruence|].
    apply N. rewrite (has_type_unique _ _ _ H K1). auto.
  - destruct (line_err _ _ _ P) as [[z ->]|[z ->]]; eauto.
    exfalso. destruct (line_type_known line n) as [c' [K1 K2]]; [intros e K; congruence|congruence|].
    apply N. rewrite (has_type_unique _ _ _ H K1). auto.
  - exfalso. destruct H as [w1 [w2 [v [-> [B1 [B2 [W NE]]]]]]]. unfold parse_sdp_line in P.
    replace (w1 ++ [c] ++ w2 ++ [61] ++ v) with ((w1 ++ [c] ++ w2) ++ c_eq :: v) in P by (rewrite <- !app_assoc; reflexivity).
    rewrite splitn2_app in P.
    2: { apply contains_not_In. intros K. apply in_app_iff in K. unfold blank in B1, B2. rewrite Forall_forall in B1, B2.
         destruct K as [K|[K|K]]; [apply B1 in K; discriminate|auto|apply B2 in K; discriminate]. }
    destruct (negb _) in P; [discriminate|]. cbv zeta in P. rewrite trim_pad3 in P by auto.
    assert (T : trim [c] = [c]) by (apply trim_id; split; [exists c, []|exists [], c]; auto). rewrite T in P.
    destruct (N.ltb_spec 1 (byte_len [c])) as [B|B]; [discriminate|]. cbn [is_empty] in P.
    rewrite ascii_lower_char in P by auto. destruct (_ && _) in P; [discriminate|].
    assert (K : parse_value [ascii_lower c] (trim v) v <> Panic).
    { unfold parse_value.
      repeat match goal with |- (if str_eqb ?t ?l then _ else _) <> _ =>
        destruct (str_eqb_spec t l) as [K|_];
          [first [discriminate | exfalso; apply N; inversion K as [K']; rewrite K'; vm_compute; tauto]|] end.
      discriminate. }
    destruct (parse_value _ _ _); try discriminate. congruence.
Qed.
Lemma unknown_type_document : forall sdp i line c b s, nth_error (lines sdp) i = Some line ->
  has_type line c -> ~ In (ascii_lower c) known_types -> parse_sdp sdp b <> Ok s.
Proof.
  intros sdp i line c b s H T N P.
  assert (NB : ~ blank line).
  { destruct T as [w1 [w2 [v [-> [_ [_ [W _]]]]]]]. intros B. unfold blank in B. rewrite Forall_forall in B.
    rewrite B in W; [discriminate|]. apply in_app_iff. right. left. auto. }
  assert (P' : parse_sdp sdp false = Ok s) by (destruct b; auto; apply strict_iff in P; tauto).
  destruct (warnings_exact _ _ P') as [idxs [_ [F K]]].
  destruct (unknown_type_line line c i T N) as [e He].
  destruct (in_dec Nat.eq_dec i idxs) as [I|I].
  - clear K. revert I. induction F as [|j w idxs ws [ln [x [[Q1 [Q2 Q3]] ->]]] F IH]; intros I; [destruct I|].
    destruct I as [<-|I]; auto.
    rewrite H in Q1. inv Q1. congruence.
  - destruct (K i line H I) as [K1|[l K1]]; congruence.
Qed.

(** ** C43 *)
Lemma line_text_injective : forall n n' l l',
  show_N (N.of_nat n) ++ lit "): " ++ l = show_N (N.of_nat n') ++ lit "): " ++ l' -> n = n' /\ l = l'.
Proof.
  intros n n' l l' H.
  assert (X : forall a b r r', ~ In 41 a -> ~ In 41 b -> a ++ 41 :: r = b ++ 41 :: r' -> a = b /\ r = r').
  { induction a as [|x a IH]; intros b r r' Ha Hb K; destruct b as [|y b]; cbn [app] in K; inversion K; subst; auto.
    - exfalso. apply Hb. left; auto.
    - exfalso. apply Ha. left; auto.
    - destruct (IH b r r') as [-> ->]; auto; intros Q; [apply Ha|apply Hb]; right; auto. }
  assert (Y : forall k, ~ In 41 (show_N k)) by (intros k; apply contains_not_In, show_N_no; auto).
  apply X in H; auto. destruct H as [H1 H2]. inversion H2. split; auto.
  apply show_N_inj in H1. lia.
Qed.
Lemma show_perr_parts : forall a b, show_perr a = show_perr b ->
  match a, b with
  | PLine e l n, PLine e' l' n' | PUnsupported e l n, PUnsupported e' l' n' =>
      show_ierr e = show_ierr e' -> l = l' /\ n = n'
  | PSequence m n, PSequence m' n' => m = m' /\ n = n'
  | _, _ => False
  end.
Proof.
  intros a b H. destruct a as [e l n|e l n|m n], b as [e' l' n'|e' l' n'|m' n']; cbn [show_perr] in H; try discriminate.
  - intros K. rewrite K in H. repeat apply app_inv_head in H. apply line_text_injective in H. tauto.
  - intros K. rewrite K in H. repeat apply app_inv_head in H. apply line_text_injective in H. tauto.
  - apply app_inv_head in H. apply line_text_injective in H. tauto.
Qed.
End WithExt.

(** * Lemmas about lines that are out of place in a text (C06, C07, C09) *)
From Coq Require Import List NArith ZArith Bool Ascii String Lia ZifyBool ZifyNat ZifyN.
From Verif Require Import Str Num Net Types Ext Show AttrParse Media Session StrLemmas SpecApi PApi SpecDoc PDoc PDoc2 PDoc3.
Import ListNotations.
Open Scope N_scope.
Open Scope list_scope.
Section WithExt.
Context {E : Ext}.

Lemma Scan_app : forall n l1 L1 H1 W1, Scan n l1 L1 H1 W1 -> forall l2 L2 H2 W2,
  Scan (n + List.length l1) l2 L2 H2 W2 -> Scan n (l1 ++ l2) (L1 ++ L2) (H1 ++ H2) (W1 ++ W2).
Proof.
  intros n l1 L1 H1 W1 S. induction S; intros l2 L2 H2 W2 S2; cbn [List.length] in S2;
    rewrite ?Nat.add_0_r in S2; rewrite <- ?Nat.add_succ_comm in S2; cbn [app]; auto.
  - apply Scan_blank; auto.
  - apply Scan_ok; auto.
  - apply Scan_warn; auto.
  - apply Scan_hard; auto.
Qed.
Lemma text_lines : forall sdp b A x l B ta tb wa wb, 51 <= byte_len sdp ->
  lines sdp = A ++ x :: B -> Reads 0 A ta wa -> ~ blank x -> parse_sdp_line x (List.length A) = Ok l ->
  Reads (S (List.length A)) B tb wb -> (b = true -> wa ++ wb = []) ->
  exists LA LB, map l_type LA = ta /\ map l_type LB = tb /\
    parse_sdp sdp b = (s <- parse_sdp_vector (LA ++ l :: LB) ;; Ok (session_with_warnings (wa ++ wb) s)).
Proof.
  intros sdp b A x l B ta tb wa wb B51 HL RA NB HP RB HW.
  apply Reads_Scan in RA, RB. destruct RA as [LA [SA <-]], RB as [LB [SB <-]].
  exists LA, LB. split; auto. split; auto.
  assert (S : Scan 0 (lines sdp) (LA ++ l :: LB) [] (wa ++ wb)).
  { rewrite HL. apply (Scan_app _ _ _ _ _ SA _ (l :: LB) [] wb). apply Scan_ok; auto. }
  rewrite (parse_scan _ b _ _ _ B51 S). unfold finish. cbn [last_error rev hd_error].
  destruct b; auto. rewrite HW by auto. auto.
Qed.
Lemma misplaced_session : forall sdp b A x l B v o name head tb wa wb, 51 <= byte_len sdp ->
  lines sdp = A ++ x :: B ->
  Reads 0 A (TyVersion v :: TyOrigin o :: TySession name :: head) wa ->
  ~ blank x -> parse_sdp_line x (List.length A) = Ok l ->
  Reads (S (List.length A)) B tb wb -> (b = true -> wa ++ wb = []) ->
  Forall session_item head -> ~ session_item (l_type l) -> ~ is_media (l_type l) ->
  exists m, parse_sdp sdp b = Err (PSequence m (List.length A)).
Proof.
  intros sdp b A x l B v o name head tb wa wb B51 HL RA NB HP RB HW F N1 N2.
  destruct (text_lines _ b _ _ _ _ _ _ _ _ B51 HL RA NB HP RB HW) as [LA [LB [E1 [E2 ->]]]].
  destruct LA as [|l0 LA]; [discriminate|]. destruct LA as [|l1 LA]; [discriminate|].
  destruct LA as [|l2 LA]; [discriminate|]. cbn [map] in E1. injection E1 as K0 K1 K2 K3.
  assert (M : l_number l = List.length A) by (apply line_ok_fields in HP; tauto).
  destruct (bad_session_line v o name _ l0 l1 l2 l LA LB K0 K1 K2 eq_refl) as [m Hm]; auto.
  - rewrite K3. auto.
  - intros m K. apply N2. exists m. auto.
  - exists m. cbn [app]. rewrite Hm, M. reflexivity.
Qed.
Lemma misfit_bad : forall ml cur t, section_ok (ml, cur) -> ~ section_ok (ml, cur ++ [t]) -> ~ is_media t ->
  bad_after (media_new ml) cur t.
Proof.
  intros ml cur t [G1 G2] N1 N2. cbn [snd] in *.
  assert (X : media_item t -> (List.length (connections (cur ++ [t])) <= 1)%nat -> False).
  { intros X1 X2. apply N1. split; auto. cbn [snd]. apply Forall_app. split; auto. }
  unfold connections in *. rewrite flat_map_app, app_length in X.
  destruct t; cbn [bad_after media_item flat_map List.length app] in *; auto.
  - intros K. apply X; auto. lia.
  - apply X; auto. lia.
  - unfold conns, connections. cbn [m_connection media_new]. destruct (Nat.eq_dec (List.length (flat_map (fun t => match t with TyConnection c => [c] | _ => [] end) cur)) 1); auto.
    exfalso. apply X; auto. lia.
  - apply N2. eexists; eauto.
Qed.
Lemma misplaced_media : forall sdp b A x l B v o name head ss ml cur tb wa wb, 51 <= byte_len sdp ->
  lines sdp = A ++ x :: B ->
  Reads 0 A (TyVersion v :: TyOrigin o :: TySession name :: head ++ flat_map section_lines ss ++ TyMedia ml :: cur) wa ->
  ~ blank x -> parse_sdp_line x (List.length A) = Ok l ->
  Reads (S (List.length A)) B tb wb -> (b = true -> wa ++ wb = []) ->
  Forall session_item head -> Forall section_ok ss -> section_ok (ml, cur) ->
  ~ section_ok (ml, cur ++ [l_type l]) -> ~ is_media (l_type l) ->
  exists m, parse_sdp sdp b = Err (PSequence m (List.length A)).
Proof.
  intros sdp b A x l B v o name head ss ml cur tb wa wb B51 HL RA NB HP RB HW F F2 G N1 N2.
  destruct (text_lines _ b _ _ _ _ _ _ _ _ B51 HL RA NB HP RB HW) as [LA [LB [E1 [E2 ->]]]].
  destruct LA as [|l0 LA]; [discriminate|]. destruct LA as [|l1 LA]; [discriminate|].
  destruct LA as [|l2 LA]; [discriminate|]. cbn [map] in E1. injection E1 as K0 K1 K2 K3.
  apply map_eq_app in K3. destruct K3 as [h [r [-> [K3 K4]]]].
  apply map_eq_app in K4. destruct K4 as [q [r' [-> [K4 K5]]]].
  destruct r' as [|y c]; [discriminate|]. cbn [map] in K5. injection K5 as K5 K6.
  assert (M : l_number l = List.length A) by (apply line_ok_fields in HP; tauto).
  destruct (bad_media_line v o name (l0 :: l1 :: l2 :: h ++ q ++ y :: c ++ l :: LB) l0 l1 l2 y l h q ss c LB ml K0 K1 K2 eq_refl) as [m Hm]; auto.
  - rewrite K3. auto.
  - rewrite K6. auto.
  - rewrite K6. apply misfit_bad; auto.
  - exists m. cbn [app]. rewrite <- !app_assoc. cbn [app]. rewrite Hm, M. reflexivity.
Qed.
Lemma structure_text : forall sdp b ts ws s, 51 <= byte_len sdp -> Reads 0 (lines sdp) ts ws ->
  (b = true -> ws = []) -> (4 <= List.length ts)%nat -> Assembles ts s -> ~ structural s ->
  exists m, parse_sdp sdp b = Err (PSequence m 0).
Proof.
  intros sdp b ts ws s B R HW L4 A N. apply Reads_Scan in R. destruct R as [L [S <-]]. rewrite map_length in L4.
  destruct (assembly_structural L (with_warnings s [])) as [m Hm]; auto.
  - intros K. apply N. exact (proj1 (structural_warnings _ _) K).
  - exists m. rewrite (parse_scan _ b _ _ _ B S). unfold finish. cbn [last_error rev hd_error]. rewrite Hm.
    destruct b; auto. rewrite HW; auto.
Qed.
(** Fewer than four parsed lines, or a wrong start. *)
Lemma start_text : forall sdp b ts ws, 51 <= byte_len sdp -> Reads 0 (lines sdp) ts ws ->
  (b = true -> ws = []) ->
  ((List.length ts < 4)%nat \/ ~ exists v o n r, ts = TyVersion v :: TyOrigin o :: TySession n :: r) ->
  exists m n, parse_sdp sdp b = Err (PSequence m n).
Proof.
  intros sdp b ts ws B R HW N. apply Reads_Scan in R. destruct R as [L [S <-]].
  assert (X : exists m n, parse_sdp_vector L = Err (PSequence m n)).
  { unfold parse_sdp_vector. rewrite map_length in N. destruct (Nat.ltb_spec (List.length L) 4); [eauto|].
    destruct N as [N|N]; [lia|].
    destruct L as [|l0 L]; [cbn in *; lia|]. destruct L as [|l1 L]; [cbn in *; lia|]. destruct L as [|l2 L]; [cbn in *; lia|].
    cbn [idx nth_error bind skipn]. destruct (l_type l0) eqn:K0; eauto.
    cbn [idx nth_error bind skipn]. destruct (l_type l1) eqn:K1; eauto.
    cbn [idx nth_error bind skipn]. destruct (l_type l2) eqn:K2; eauto.
    exfalso. apply N. cbn [map]. rewrite K0, K1, K2. eauto 10. }
  destruct X as [m [n X]]. exists m, n. rewrite (parse_scan _ b _ _ _ B S). unfold finish. cbn [last_error rev hd_error].
  rewrite X. destruct b; auto. rewrite HW; auto.
Qed.

(** ** C07 *)
Lemma levels : forall sdp b s, parse_sdp sdp b = Ok s ->
  Forall (fun a => In (sdp_name a) session_names) (s_attribute s) /\
  Forall (fun m => Forall (fun a => In (sdp_name a) media_names) (m_attribute m)) (s_media s).
Proof.
  intros sdp b s H. apply document in H. destruct H as [_ [ts [ws [_ [_ [_ [_ [A _]]]]]]]].
  destruct A as [name [head [secs [_ [_ [F1 [F2 [_ [HA [_ [_ HM]]]]]]]]]]]. split.
  - rewrite HA. apply Forall_forall. intros a K. unfold attributes in K. apply in_flat_map in K.
    destruct K as [t [K1 K2]]. rewrite Forall_forall in F1. apply F1 in K1. destruct t; try contradiction.
    destruct K2 as [->|[]]. exact K1.
  - rewrite HM. apply Forall_forall. intros m K. apply in_map_iff in K. destruct K as [sec [<- K]].
    rewrite Forall_forall in F2. destruct (F2 _ K) as [G _]. cbn [m_attribute section_media].
    apply Forall_forall. intros a Ha. apply filter_In in Ha. destruct Ha as [Ha Hn].
    unfold attributes in Ha. apply in_flat_map in Ha. destruct Ha as [t [K1 K2]].
    rewrite Forall_forall in G. apply G in K1. destruct t; try contradiction. destruct K2 as [->|[]].
    destruct K1 as [K1|K1]; auto. exfalso. unfold not_named, named in Hn. rewrite K1 in Hn. discriminate.
Qed.

(** ** C09 *)
Lemma head_unique : forall h1 h2 s1 s2, Forall session_item h1 -> Forall session_item h2 ->
  h1 ++ flat_map section_lines s1 = h2 ++ flat_map section_lines s2 -> h1 = h2.
Proof.
  induction h1 as [|a h1 IH]; intros [|b h2] s1 s2 F1 F2 H; auto.
  - destruct s1 as [|m s1]; [discriminate|]. cbn in H. inversion H; subst. inv F2. contradiction.
  - destruct s2 as [|m s2]; [discriminate|]. cbn in H. inversion H; subst. inv F1. contradiction.
  - cbn [app] in H. inversion H; subst. inv F1. inv F2. f_equal. eapply IH; eauto.
Qed.
Lemma last_of_app : forall A (l : list A) x, last_of (l ++ [x]) = Some x.
Proof. intros. unfold last_of. rewrite rev_unit. auto. Qed.
Lemma last_wins : forall v o name head (l : list sdp_line) s,
  map l_type l = TyVersion v :: TyOrigin o :: TySession name :: head -> Forall session_item head ->
  parse_sdp_vector l = Ok s ->
  (forall before t after, head = before ++ TyTiming t :: after -> timings after = [] -> s_timing s = Some t) /\
  (forall before c after, head = before ++ TyConnection c :: after -> connections after = [] -> s_connection s = Some c).
Proof.
  intros v o name head l s HL F H. apply assembly in H. destruct H as [_ [A _]].
  destruct A as [name' [head' [secs [E1 [_ [F1 [_ [_ [_ [HT [HC _]]]]]]]]]]]. rewrite HL in E1. inversion E1; subst.
  assert (X : head' ++ flat_map section_lines secs = head').
  { destruct secs as [|x secs]; [apply app_nil_r|]. exfalso. rewrite Forall_app in F. destruct F as [_ F]. cbn in F. inv F. contradiction. }
  rewrite X. split; intros before t after -> K.
  - rewrite HT. unfold timings in *. rewrite flat_map_app. cbn [flat_map]. rewrite K. apply last_of_app.
  - rewrite HC. unfold connections in *. rewrite flat_map_app. cbn [flat_map]. rewrite K. apply last_of_app.
Qed.
Lemma misplaced_rejected : forall v o name (l0 l1 l2 y x : sdp_line) head secs ss cur rest ml,
  l_type l0 = TyVersion v -> l_type l1 = TyOrigin o -> l_type l2 = TySession name ->
  Forall session_item (map l_type head) ->
  map l_type secs = flat_map section_lines ss -> Forall section_ok ss ->
  l_type y = TyMedia ml -> section_ok (ml, map l_type cur) ->
  (exists t, l_type x = TyTiming t) \/ (exists n, l_type x = TyVersion n) \/
  (exists g, l_type x = TyOrigin g) \/ (exists n, l_type x = TySession n) \/
  (exists c c', l_type x = TyConnection c /\ In (TyConnection c') (map l_type cur)) ->
  exists m, parse_sdp_vector (l0 :: l1 :: l2 :: head ++ secs ++ y :: cur ++ x :: rest) =
            Err (PSequence m (l_number x)).
Proof.
  intros v o name l0 l1 l2 y x head secs ss cur rest ml K0 K1 K2 F Hs Fs Ky G B.
  eapply (bad_media_line v o name _ l0 l1 l2 y x head secs ss cur rest ml); eauto.
  destruct B as [[t ->]|[[n ->]|[[g ->]|[[n ->]|[c [c' [-> I]]]]]]]; cbn; auto.
  destruct G as [_ G]. cbn [snd] in G. unfold conns. cbn [m_connection media_new].
  apply in_split in I. destruct I as [p [q I]]. rewrite I in *. unfold connections in *.
  rewrite flat_map_app in *. rewrite app_length in *. cbn [flat_map app List.length] in *. lia.
Qed.

(** ** C43 *)
Lemma parts_shown : forall p : perr,
  match p with
  | PLine e l n | PUnsupported e l n =>
      (exists a b, show_perr p = a ++ show_ierr e ++ b) /\ (exists a b, show_perr p = a ++ show_N (N.of_nat n) ++ b) /\
      (exists a b, show_perr p = a ++ l ++ b)
  | PSequence m n => (exists a b, show_perr p = a ++ m ++ b) /\ (exists a b, show_perr p = a ++ show_N (N.of_nat n) ++ b)
  end.
Proof.
  assert (X : forall p1 e p2 (n p3 l : str),
    (exists a b, p1 ++ e ++ p2 ++ n ++ p3 ++ l = a ++ e ++ b) /\
    (exists a b, p1 ++ e ++ p2 ++ n ++ p3 ++ l = a ++ n ++ b) /\
    (exists a b, p1 ++ e ++ p2 ++ n ++ p3 ++ l = a ++ l ++ b)).
  { intros. split; [eauto|]. split.
    - exists (p1 ++ e ++ p2), (p3 ++ l). rewrite <- !app_assoc. auto.
    - exists (p1 ++ e ++ p2 ++ n ++ p3), []. rewrite <- !app_assoc, app_nil_r. auto. }
  intros [e l n|e l n|m n]; unfold show_perr; [apply X|apply X|]. split.
  - exists (lit "Sequence error in line(" ++ show_N (N.of_nat n) ++ lit "): "), []. rewrite <- !app_assoc, app_nil_r. auto.
  - eauto.
Qed.
End WithExt.

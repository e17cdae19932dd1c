(** * Proofs for C66 *)
From Coq Require Import List Arith NArith ZArith Bool Ascii String Lia.
From Verif Require Import Str Num Net Types Ext Show AttrParse Media Session StrLemmas NumLemmas
  SpecApi PApi SpecDoc PPanic PDoc PDoc2 PDoc3 PDoc4 SpecVal PVal8 SpecUnsup PUnsup SpecSeq.
Import ListNotations.
Open Scope nat_scope.
Open Scope list_scope.

Section WithExt.
Context {E : Ext}.

(** ** Rules about sections and sessions *)
Lemma forallb_not : forall {A} (f : A -> bool) l, forallb f l = false -> exists x, In x l /\ f x = false.
Proof.
  intros A f l. induction l as [|x l IH]; [discriminate|]. cbn [forallb]. destruct (f x) eqn:Q; cbn [andb]; intro H.
  - destruct (IH H) as (y & I & K). exists y. split; [right; exact I | exact K].
  - exists x. split; [left; reflexivity | exact Q].
Qed.
Lemma not_has : forall n l, is_some (find (fun a => attr_type_eqb (attr_type_of a) n) l) = false -> ~ has (type_name n) l.
Proof. intros n l H K. apply find_has in K. congruence. Qed.
Lemma defined_not : forall vs attrs d, defined_rids vs (rid_ids_of d (flat_map (fun a => match a with ARid r => [r] | _ => [] end) attrs)) = false ->
  exists v i, In v vs /\ In i v /\ ~ rid_defined attrs d (sid_id i).
Proof.
  intros vs attrs d H. unfold defined_rids in H. apply forallb_not in H. destruct H as (i & I & K). apply in_concat in I. destruct I as (v & V & I).
  exists v, i. split; [exact V|]. split; [exact I|]. intro D.
  assert (Q : defined_rids [[i]] (rid_ids_of d (flat_map (fun a => match a with ARid r => [r] | _ => [] end) attrs)) = true).
  { apply defined_rids_spec. intros v' i' [<-|[]] [<-|[]]. exact D. }
  unfold defined_rids in Q. cbn in Q. rewrite andb_true_r in Q. congruence.
Qed.
Lemma rids_in : forall m r, In r (rids_of m) -> In (ARid r) (m_attribute m).
Proof.
  intros m r H. unfold rids_of in H. apply in_flat_map in H. destruct H as (a & I & K). destruct a; try contradiction. destruct K as [<-|[]]. exact I.
Qed.
Lemma declared_iff : forall f n, rid_format_declared f n = true <-> format_listed f n.
Proof. intros f n. unfold rid_format_declared, format_listed. destruct f; [apply mem_N_In | apply mem_str_In]. Qed.
Lemma check_media_err : forall m e, sanity_check_media m = Err e -> exists msg, e = PSequence msg 0 /\ section_breaks m msg.
Proof.
  intros m e H. unfold sanity_check_media, seq_error in H. cbv zeta in H.
  destruct (is_some (get_attribute TRtcpMuxOnly m) && negb (is_some (get_attribute TRtcpMux m))) eqn:Q.
  { injection H as <-. eexists. split; [reflexivity|]. apply andb_prop in Q. destruct Q as [Q1 Q2].
    apply breaks_mux; [apply (find_has TRtcpMuxOnly); exact Q1 | apply (not_has TRtcpMux); apply negb_true_iff; exact Q2]. }
  assert (M : has "rtcp-mux-only" (m_attribute m) -> has "rtcp-mux" (m_attribute m)).
  { intro K. apply (find_has TRtcpMuxOnly) in K. unfold get_attribute in Q. rewrite K in Q. cbn [andb] in Q. apply negb_false_iff in Q. apply (find_has TRtcpMux). exact Q. }
  destruct (forallb (rid_format_declared (get_formats m)) (flat_map rid_formats (rids_of m))) eqn:F; cbn [negb] in H.
  2:{ injection H as <-. eexists. split; [reflexivity|]. apply forallb_not in F. destruct F as (n & I & K). apply in_flat_map in I. destruct I as (r & Ir & In').
      apply (breaks_rid m r n M); [apply rids_in; exact Ir | exact In'|]. intro L. apply declared_iff in L. unfold get_formats in K. congruence. }
  assert (R : forall r n, In (ARid r) (m_attribute m) -> In n (rid_formats r) -> format_listed (ml_formats (m_media m)) n).
  { intros r n I J. apply declared_iff. rewrite forallb_forall in F. apply F. apply in_flat_map. exists r. split; [|exact J].
    apply in_flat_map. exists (ARid r). split; [exact I | left; reflexivity]. }
  pose proof (find_simulcast (m_attribute m)) as S. unfold get_attribute in H. destruct (find _ _) as [y|]; [|discriminate H].
  destruct y; try contradiction. destruct S as (b & a' & S1 & S2).
  assert (X : exists v i, In i v /\ (In v (sim_send a) /\ ~ rid_defined (m_attribute m) Send (sid_id i) \/ In v (sim_receive a) /\ ~ rid_defined (m_attribute m) Recv (sid_id i)) /\
              e = PSequence (lit "Simulcast RIDs must be defined in any rid attribute") 0).
  { unfold rids_of in H. destruct (defined_rids (sim_receive a) _) eqn:D1; cbn [negb] in H.
    - destruct (defined_rids (sim_send a) _) eqn:D2; cbn [negb] in H; [discriminate H|]. injection H as <-. apply defined_not in D2. destruct D2 as (v & i & V & I & K).
      exists v, i. split; [exact I|]. split; [left; split; assumption | reflexivity].
    - injection H as <-. apply defined_not in D1. destruct D1 as (v & i & V & I & K). exists v, i. split; [exact I|]. split; [right; split; assumption | reflexivity]. }
  destruct X as (v & i & I & X & ->). eexists. split; [reflexivity|]. exact (breaks_simulcast m b a a' v i M R S1 S2 I X).
Qed.
Lemma first_simulcast : forall b sc a b' sc' a', b ++ ASimulcast sc :: a = b' ++ ASimulcast sc' :: a' -> ~ has "simulcast" b -> ~ has "simulcast" b' -> sc = sc'.
Proof.
  intros b sc a b' sc' a' H K K'.
  assert (ASimulcast sc = ASimulcast sc') as Q.
  { eapply (first_unique (fun x => sdp_name x = "simulcast"%string)); [exact H| | | |]; auto; intros z Hz Hn; [apply K | apply K']; exists z; auto. }
  injection Q as ->. reflexivity.
Qed.
Lemma section_breaks_rules : forall m msg, section_breaks m msg -> ~ media_rules m.
Proof.
  intros m msg H [R1 R2 R3]. destruct H as [H1 H2|r n H1 H2 H3 H4|b sc a v i H1 H2 H3 H4 H5 H6].
  - exact (H2 (R1 H1)).
  - exact (H4 (R2 r n H2 H3)).
  - destruct (R3 b sc a H3 H4) as [S1 S2]. destruct H6 as [[V K]|[V K]]; apply K; [exact (S1 v i V H5) | exact (S2 v i V H5)].
Qed.
Lemma section_breaks_one : forall m x y, section_breaks m x -> section_breaks m y -> x = y.
Proof.
  intros m x y H K. destruct H as [H1 H2|r n H1 H2 H3 H4|b sc a v i H1 H2 H3 H4 H5 H6]; destruct K as [K1 K2|r' n' K1 K2 K3 K4|b' sc' a' v' i' K1 K2 K3 K4 K5 K6]; try reflexivity; exfalso; eauto.
Qed.
Lemma check_media_total : forall m, sanity_check_media m <> Panic.
Proof.
  intros m. unfold sanity_check_media, seq_error. cbv zeta. destruct (_ && _); [discriminate|]. destruct (negb _); [discriminate|].
  destruct (get_attribute _ _) as [[]|]; try discriminate. destruct (negb _); [discriminate|]. destruct (negb _); discriminate.
Qed.
Lemma check_media_breaks : forall m msg, sanity_check_media m = Err (PSequence msg 0) <-> section_breaks m msg.
Proof.
  intros m msg. split; intro H.
  - apply check_media_err in H. destruct H as (x & Q & H). injection Q as ->. exact H.
  - destruct (sanity_check_media m) as [[]|e|] eqn:Q.
    + apply check_media_ok in Q. destruct (section_breaks_rules m msg H Q).
    + apply check_media_err in Q. destruct Q as (x & -> & K). rewrite (section_breaks_one m x msg K H). reflexivity.
    + destruct (check_media_total m Q).
Qed.
Lemma check_all_err : forall l e, sanity_check_all l = Err e <-> exists before m after, l = before ++ m :: after /\ Forall media_rules before /\ sanity_check_media m = Err e.
Proof.
  induction l as [|m l IH]; intro e; cbn [sanity_check_all]; [split; [discriminate|intros ([|] & x & a & Q & _); discriminate Q]|].
  destruct (sanity_check_media m) as [[]|e'|] eqn:Q; cbn [bind].
  - rewrite IH. apply check_media_ok in Q. split; intros (b & x & a & H1 & H2 & H3).
    + exists (m :: b), x, a. split; [rewrite H1; reflexivity|]. split; [constructor; assumption | exact H3].
    + destruct b as [|y b]; cbn [app] in H1; injection H1 as -> ->; [apply check_media_ok in Q; congruence|]. exists b, x, a. split; [reflexivity|]. split; [inversion H2; assumption | exact H3].
  - split; [intro H; injection H as ->; exists [], m, l; repeat split; [constructor | exact Q]|].
    intros (b & x & a & H1 & H2 & H3). destruct b as [|y b]; cbn [app] in H1; injection H1 as -> ->; [congruence|]. inversion H2 as [|? ? R _]; subst. apply check_media_ok in R. congruence.
  - destruct (check_media_total m Q).
Qed.
Lemma check_all_total : forall l, sanity_check_all l <> Panic.
Proof.
  induction l as [|m l IH]; cbn [sanity_check_all]; [discriminate|]. destruct (sanity_check_media m) as [[]|e'|] eqn:Q; cbn [bind]; [exact IH | discriminate | destruct (check_media_total m Q)].
Qed.
Lemma sanity_total : forall s, sanity_check s <> Panic.
Proof.
  intro s. unfold sanity_check, seq_error. cbv zeta. destruct (negb _); [discriminate|]. destruct (_ && _); [discriminate|]. destruct (_ && _); [discriminate | apply check_all_total].
Qed.
Lemma none_is : forall {A} (o : option A), is_some o = false <-> o = None.
Proof. intros A []; cbn; split; congruence. Qed.
Lemma some_is : forall {A} (o : option A), is_some o = true <-> o <> None.
Proof. intros A []; cbn; split; congruence. Qed.
Lemma sanity_breaks_fwd : forall s e, sanity_check s = Err e -> exists msg, e = PSequence msg 0 /\ session_breaks s msg.
Proof.
  intros s e H. unfold sanity_check, seq_error in H. cbv zeta in H. destruct (is_some (s_timing s)) eqn:T; cbn [negb] in H.
  2:{ injection H as <-. eexists. split; [reflexivity|]. apply breaks_timing. apply none_is. exact T. }
  apply some_is in T. destruct (negb (forallb (fun m => is_some (m_connection m)) (s_media s)) && negb (is_some (s_connection s))) eqn:C.
  { injection H as <-. eexists. split; [reflexivity|]. apply andb_prop in C. destruct C as [C1 C2]. apply negb_true_iff in C1, C2. apply forallb_not in C1.
    destruct C1 as (m & I & K). apply (breaks_connection s m T); [apply none_is; exact C2 | exact I | apply none_is; exact K]. }
  assert (Cn : s_connection s = None -> forall x, In x (s_media s) -> m_connection x <> None).
  { intros K x I. apply none_is in K. rewrite K in C. cbn [negb] in C. rewrite andb_true_r in C. apply negb_false_iff in C. rewrite forallb_forall in C. apply some_is. exact (C x I). }
  destruct (is_some (session_get_attribute TExtmap s) && existsb (fun m => is_some (get_attribute TExtmap m)) (s_media s)) eqn:X.
  { injection H as <-. eexists. split; [reflexivity|]. apply andb_prop in X. destruct X as [X1 X2]. apply existsb_exists in X2. destruct X2 as (m & I & K).
    apply (breaks_extmap s m T Cn); [apply (find_has TExtmap); exact X1 | exact I | apply (find_has TExtmap); exact K]. }
  apply check_all_err in H. destruct H as (b & m & a & H1 & H2 & H3). apply check_media_err in H3. destruct H3 as (msg & -> & H3).
  exists msg. split; [reflexivity|]. apply (breaks_section s b m a msg T Cn); [|exact H1 | exact H2 | exact H3].
  intros K x I J. apply (find_has TExtmap) in K. unfold session_get_attribute in X. rewrite K in X. cbn [andb] in X.
  assert (Y : existsb (fun m => is_some (get_attribute TExtmap m)) (s_media s) = true) by (apply existsb_exists; exists x; split; [exact I | apply (find_has TExtmap); exact J]). congruence.
Qed.
Lemma sections_one : forall b m a x b' m' a' y, b ++ m :: a = b' ++ m' :: a' -> Forall media_rules b -> Forall media_rules b' -> section_breaks m x -> section_breaks m' y -> x = y.
Proof.
  induction b as [|z b IH]; intros m a x [|z' b'] m' a' y H F F' X Y; cbn [app] in H; injection H as Q1 Q2.
  - subst m'. exact (section_breaks_one m x y X Y).
  - subst z'. inversion F' as [|? ? R _]; subst. destruct (section_breaks_rules _ _ X R).
  - subst z. inversion F as [|? ? R _]; subst. destruct (section_breaks_rules _ _ Y R).
  - inversion F; inversion F'; subst. exact (IH m a x b' m' a' y Q2 ltac:(assumption) ltac:(assumption) X Y).
Qed.
Lemma session_breaks_one : forall s x y, session_breaks s x -> session_breaks s y -> x = y.
Proof.
  intros s x y H K. destruct H as [H1|m H1 H2 H3 H4|m H1 H2 H3 H4 H5|b m a msg H1 H2 H3 H4 H5 H6]; destruct K as [K1|m' K1 K2 K3 K4|m' K1 K2 K3 K4 K5|b' m' a' msg' K1 K2 K3 K4 K5 K6]; try reflexivity; try (exfalso; eauto; fail).
  - exfalso. exact (K2 H2 m H3 H4).
  - exfalso. exact (K2 H2 m H3 H4).
  - exfalso. exact (H2 K2 m' K3 K4).
  - exfalso. exact (K3 H3 m H4 H5).
  - exfalso. exact (H2 K2 m' K3 K4).
  - exfalso. exact (H3 K3 m' K4 K5).
  - rewrite H4 in K4. exact (sections_one b m a msg b' m' a' msg' K4 H5 K5 H6 K6).
Qed.
Lemma session_breaks_rules : forall s x, session_breaks s x -> ~ structural s.
Proof.
  intros s x H [R1 R2 R3 R4]. destruct H as [H1|m H1 H2 H3 H4|m H1 H2 H3 H4 H5|b m a msg H1 H2 H3 H4 H5 H6].
  - destruct R1 as [t R1]. congruence.
  - destruct R2 as [[c R2]|R2]; [congruence|]. rewrite Forall_forall in R2. destruct (R2 m H3) as [c K]. congruence.
  - apply R3. split; [exact H3|]. apply Exists_exists. exists m. split; assumption.
  - rewrite H4 in R4. apply Forall_app in R4. destruct R4 as [_ R4]. inversion R4; subst. exact (section_breaks_rules m msg H6 ltac:(assumption)).
Qed.
Lemma sanity_breaks : forall s msg, session_breaks s msg -> sanity_check s = Err (PSequence msg 0).
Proof.
  intros s msg H. destruct (sanity_check s) as [[]|e|] eqn:Q.
  - apply sanity_ok in Q. destruct (session_breaks_rules s msg H Q).
  - apply sanity_breaks_fwd in Q. destruct Q as (x & -> & K). rewrite (session_breaks_one s x msg K H). reflexivity.
  - destruct (sanity_total s Q).
Qed.

(** ** Lines out of place *)
Lemma session_add_msg : forall a s, ~ In (sdp_name a) session_names ->
  session_add_attribute a s = (s, Err (EGeneric (show_attr a ++ lit " not allowed at session level"))).
Proof.
  intros a s H. destruct (proj2 (session_add_attribute_spec a s) H) as [e K]. unfold session_add_attribute in *.
  destruct (negb _); [reflexivity | discriminate K].
Qed.
Lemma media_add_msg : forall a m, ~ In (sdp_name a) media_names -> sdp_name a <> "dtls-message"%string ->
  exists m', media_line_attribute a m = (m', Err (EGeneric (show_attr a ++ lit " not allowed at media level"))).
Proof.
  intros a m H D. destruct (line_attribute_bad a m ltac:(tauto)) as (m' & e & K). exists m'. rewrite K.
  assert (Q : media_line_attribute a m = add_attribute a m).
  { destruct a; auto; exfalso; [apply D; reflexivity|]. apply H. apply existsb_name. reflexivity. }
  rewrite Q in K. unfold add_attribute in K. destruct (negb _); [|discriminate K]. injection K as _ <-. reflexivity.
Qed.
Lemma session_vector_msg : forall l s x r msg, Forall session_item (map l_type l) -> misplaced_in_session (l_type x) msg ->
  exists s', parse_session_vector s (l ++ x :: r) = (s', Err (PSequence msg (l_number x))).
Proof.
  induction l as [|y l IH]; intros s x r msg H1 H2; cbn [app parse_session_vector].
  - inversion H2 as [t T|a A Q1]; subst.
    + destruct T as [(v & ->)|[(o & ->)|(n & ->)]]; eauto.
    + rewrite session_add_msg by exact A. eauto.
  - cbn [map] in H1. inversion H1 as [|? ? I1 I2]; subst. destruct (l_type y) eqn:K; try contradiction; auto.
    cbn [session_item] in I1. rewrite (proj1 (session_add_attribute_spec a s) I1). auto.
Qed.
Lemma media_loop_msg : forall body d ml x rest msg, section_ok (ml, map l_type body) -> misplaced_in_media (map l_type body) (l_type x) msg ->
  media_loop d (media_new ml) (body ++ x :: rest) = Err (PSequence msg (l_number x)).
Proof.
  intros body d ml x rest msg [G1 G2] B. cbn [snd] in *. rewrite media_loop_body by (auto; unfold conns; cbn; auto). cbn [media_loop].
  inversion B as [t T|c C Q|a A D Q]; subst.
  - destruct T as [(v & ->)|[(o & ->)|[(n & ->)|(n & ->)]]]; reflexivity.
  - unfold media_plus at 1. cbn [m_connection media_new]. destruct (connections (map l_type body)); [destruct (C eq_refl)|]. reflexivity.
  - destruct (media_add_msg a (media_plus (media_new ml) (map l_type body)) A D) as (m' & K). rewrite K. reflexivity.
Qed.
Lemma misplaced_session_not : forall t msg, misplaced_in_session t msg -> forall m, t <> TyMedia m.
Proof. intros t msg H m K. subst t. inversion H as [t T|]; subst. destruct T as [(v & T)|[(v & T)|(v & T)]]; discriminate T. Qed.
Lemma session_line_msg : forall v o name (l : list sdp_line) (l0 l1 l2 x : sdp_line) head rest msg,
  l_type l0 = TyVersion v -> l_type l1 = TyOrigin o -> l_type l2 = TySession name ->
  l = l0 :: l1 :: l2 :: head ++ x :: rest -> Forall session_item (map l_type head) -> misplaced_in_session (l_type x) msg ->
  parse_sdp_vector l = Err (PSequence msg (l_number x)).
Proof.
  intros v o name l l0 l1 l2 x head rest msg K0 K1 K2 -> F B. assert (NM := misplaced_session_not _ _ B). unfold parse_sdp_vector.
  replace (Nat.ltb _ 4) with false by (symmetry; apply Nat.ltb_ge; cbn; rewrite app_length; cbn; lia).
  cbn [idx nth_error bind skipn]. rewrite K0. cbn [idx nth_error bind skipn]. rewrite K1.
  cbn [idx nth_error bind skipn]. rewrite K2. cbv zeta.
  destruct (split_at_media (head ++ x :: rest)) as [lh lt] eqn:SP.
  assert (X : exists r, lh = head ++ x :: r).
  { revert lh lt SP. clear K0 K1 K2. induction head as [|y head IH]; intros lh lt SP; cbn [app split_at_media] in SP.
    - replace (is_media_line x) with false in SP
        by (unfold is_media_line; destruct (l_type x); auto; exfalso; eapply NM; eauto).
      destruct (split_at_media rest) as [a b]. injection SP as <- <-. exists a. auto.
    - cbn [map] in F. inversion F as [|? ? F1 F2]; subst. replace (is_media_line y) with false in SP
        by (unfold is_media_line; destruct (l_type y); auto; contradiction).
      destruct (split_at_media (head ++ x :: rest)) as [a b] eqn:Q. injection SP as <- <-.
      destruct (IH F2 _ _ eq_refl) as [r ->]. exists r. auto. }
  destruct X as [r ->]. destruct (session_vector_msg head (session_new v o name) x r msg F B) as [s' H].
  rewrite H. cbn [keep bind]. destruct lt; reflexivity.
Qed.
Lemma media_line_msg : forall v o name (l : list sdp_line) (l0 l1 l2 y x : sdp_line) head secs ss cur rest ml msg,
  l_type l0 = TyVersion v -> l_type l1 = TyOrigin o -> l_type l2 = TySession name ->
  l = l0 :: l1 :: l2 :: head ++ secs ++ y :: cur ++ x :: rest ->
  Forall session_item (map l_type head) ->
  map l_type secs = flat_map section_lines ss -> Forall section_ok ss ->
  l_type y = TyMedia ml -> section_ok (ml, map l_type cur) ->
  misplaced_in_media (map l_type cur) (l_type x) msg ->
  parse_sdp_vector l = Err (PSequence msg (l_number x)).
Proof.
  intros v o name l l0 l1 l2 y x head secs ss cur rest ml msg K0 K1 K2 -> F Hs Fs Ky G B. unfold parse_sdp_vector.
  replace (Nat.ltb _ 4) with false
    by (symmetry; apply Nat.ltb_ge; cbn; rewrite !app_length; cbn; rewrite app_length; cbn; lia).
  cbn [idx nth_error bind skipn]. rewrite K0. cbn [idx nth_error bind skipn]. rewrite K1.
  cbn [idx nth_error bind skipn]. rewrite K2. cbv zeta.
  rewrite split_at_media_app; auto.
  2: { right. destruct ss as [|[m0 b] ss]; cbn in Hs.
       - destruct secs; [|discriminate]. cbn. eauto.
       - destruct secs as [|z secs]; [discriminate|]. cbn in Hs. injection Hs as Hz _. cbn. eauto. }
  rewrite session_vector_ok by auto. cbn [keep bind].
  destruct ss as [|[m0 b] ss].
  - destruct secs; [|discriminate]. cbn [app parse_media_vector]. rewrite Ky.
    rewrite (media_loop_msg cur [] ml x rest msg G B). reflexivity.
  - destruct secs as [|z secs]; [discriminate|]. cbn [map flat_map section_lines fst snd app] in Hs.
    injection Hs as Hz Hs. apply map_eq_app in Hs. destruct Hs as [b1 [b2 [-> [Hb1 Hb2]]]].
    inversion Fs as [|? ? Fb Fs']; subst. destruct Fb as [F1 F2]. cbn [fst snd] in *.
    cbn [app parse_media_vector]. rewrite Hz. rewrite <- app_assoc.
    rewrite media_loop_body by (auto; unfold conns; cbn; auto).
    rewrite (media_loop_app_secs ss) with (ml := ml) by auto.
    rewrite (media_loop_msg cur _ ml x rest msg G B). reflexivity.
Qed.

(** ** The rule broken first *)
Definition num (l : sdp_line) : nat * sdp_type := (l_number l, l_type l).
Lemma types_num : forall L, types (map num L) = map l_type L.
Proof. intro L. unfold types. rewrite map_map. apply map_ext. reflexivity. Qed.
Lemma num_cons : forall L x r, map num L = x :: r -> exists l L', L = l :: L' /\ num l = x /\ map num L' = r.
Proof. intros [|l L] x r H; [discriminate H|]. cbn [map] in H. injection H as H1 H2. exists l, L. auto. Qed.
Lemma opening_num : forall L h rest, opening h -> map num L = h ++ rest -> exists v o n l0 l1 l2 L', L = l0 :: l1 :: l2 :: L' /\
  l_type l0 = TyVersion v /\ l_type l1 = TyOrigin o /\ l_type l2 = TySession n /\ map num L' = rest.
Proof.
  intros L h rest (v & o & n & H) Q. destruct h as [|[i0 t0] [|[i1 t1] [|[i2 t2] [|]]]]; cbn in H; try discriminate H. injection H as -> -> ->.
  cbn [app] in Q. apply num_cons in Q. destruct Q as (l0 & L0 & -> & Q0 & Q). apply num_cons in Q. destruct Q as (l1 & L1 & -> & Q1 & Q).
  apply num_cons in Q. destruct Q as (l2 & L2 & -> & Q2 & Q). injection Q0 as _ Q0. injection Q1 as _ Q1. injection Q2 as _ Q2.
  exists v, o, n, l0, l1, l2, L2. auto.
Qed.
Lemma broken_vector : forall L msg n, broken (map num L) msg n -> parse_sdp_vector L = Err (PSequence msg n).
Proof.
  intros L msg n H. destruct H as [H|i t rest H1 H2 H3|i v j t rest H1 H2 H3|i v j o k t rest H1 H2 H3|h pre i t post msg O H1 H2 H3|h pre secs k ml cur i t post msg O H1 H2 H3 H4 H5|s msg H1 H2 H3].
  - rewrite map_length in H. unfold parse_sdp_vector. apply Nat.ltb_lt in H. rewrite H. reflexivity.
  - rewrite map_length in H1. unfold parse_sdp_vector. apply Nat.ltb_ge in H1. rewrite H1. apply num_cons in H2. destruct H2 as (l0 & L0 & -> & Q0 & _).
    injection Q0 as _ Q0. cbn [idx nth_error bind]. rewrite Q0. destruct t; try reflexivity. destruct (H3 v eq_refl).
  - rewrite map_length in H1. unfold parse_sdp_vector. apply Nat.ltb_ge in H1. rewrite H1. apply num_cons in H2. destruct H2 as (l0 & L0 & -> & Q0 & Q).
    apply num_cons in Q. destruct Q as (l1 & L1 & -> & Q1 & _).
    injection Q0 as _ Q0. injection Q1 as _ Q1. cbn [idx nth_error bind]. rewrite Q0. cbn [idx nth_error bind]. rewrite Q1. destruct t; try reflexivity. destruct (H3 o eq_refl).
  - rewrite map_length in H1. unfold parse_sdp_vector. apply Nat.ltb_ge in H1. rewrite H1. apply num_cons in H2. destruct H2 as (l0 & L0 & -> & Q0 & Q).
    apply num_cons in Q. destruct Q as (l1 & L1 & -> & Q1 & Q). apply num_cons in Q. destruct Q as (l2 & L2 & -> & Q2 & _).
    injection Q0 as _ Q0. injection Q1 as _ Q1. injection Q2 as _ Q2. cbn [idx nth_error bind]. rewrite Q0. cbn [idx nth_error bind]. rewrite Q1. cbn [idx nth_error bind]. rewrite Q2.
    destruct t; try reflexivity. destruct (H3 s eq_refl).
  - destruct (opening_num _ _ _ O H1) as (v & o & n & l0 & l1 & l2 & L' & -> & T0 & T1 & T2 & Q). apply map_eq_app in Q. destruct Q as (a & b & -> & Q1 & Q2).
    apply num_cons in Q2. destruct Q2 as (x & r & -> & Qx & _). injection Qx as <- <-.
    apply (session_line_msg v o n _ l0 l1 l2 x a r msg T0 T1 T2 eq_refl); [rewrite <- types_num, Q1; exact H2 | exact H3].
  - destruct (opening_num _ _ _ O H1) as (v & o & n & l0 & l1 & l2 & L' & -> & T0 & T1 & T2 & Q). apply map_eq_app in Q. destruct Q as (a & b & -> & Q1 & Q2).
    apply map_eq_app in Q2. destruct Q2 as (sl & b' & -> & Q2 & Q3). apply num_cons in Q3. destruct Q3 as (y & r & -> & Qy & Q3). injection Qy as Qy1 Qy2.
    apply map_eq_app in Q3. destruct Q3 as (cl & b'' & -> & Q3 & Q4). apply num_cons in Q4. destruct Q4 as (x & r' & -> & Qx & _). injection Qx as <- <-.
    destruct H3 as (ss & S1 & S2). rewrite <- Q3, types_num in H4, H5. rewrite <- Q2, types_num in S1. rewrite <- Q1, types_num in H2.
    exact (media_line_msg v o n _ l0 l1 l2 y x a sl ss cl r' ml msg T0 T1 T2 eq_refl H2 S1 S2 Qy2 H4 H5).
  - rewrite map_length in H1. rewrite types_num in H2. apply (Assembles_warnings _ s []) in H2. apply Assembles_iff in H2; [|reflexivity].
    destruct H2 as (v & o & name & head & secs & Q & F1 & F2 & Qs). rewrite (vector_good v o name head secs L Q F1 F2 H1).
    rewrite <- Qs. rewrite (sanity_breaks (with_warnings s []) msg); [reflexivity|]. clear -H3. inversion H3; subst; [apply breaks_timing | eapply breaks_connection | eapply breaks_extmap | eapply breaks_section]; cbn [with_warnings s_timing s_connection s_media s_attribute]; eauto.
Qed.
Lemma media_item_or : forall body t, media_item t -> ~ (List.length (connections (body ++ [t])) <= 1) -> List.length (connections body) <= 1 ->
  exists msg, misplaced_in_media body t msg.
Proof.
  intros body t I C L. unfold connections in C. rewrite flat_map_app, app_length in C. fold (connections body) in C. destruct t; cbn [flat_map app List.length] in C; try lia.
  eexists. apply media_connection. intro K. rewrite K in C. cbn in C. lia.
Qed.
Lemma bad_after_msg : forall ml body t, bad_after (media_new ml) body t -> exists msg, misplaced_in_media body t msg.
Proof.
  intros ml body t B. destruct t; cbn [bad_after] in B; try contradiction; try (eexists; apply media_type; eauto; fail).
  - eexists. apply media_level; tauto.
  - eexists. apply media_connection. intro K. unfold conns in B. cbn in B. rewrite K in B. discriminate B.
Qed.
Lemma session_item_msg : forall t, ~ session_item t -> (exists m, t = TyMedia m) \/ exists msg, misplaced_in_session t msg.
Proof.
  intros t H. destruct t; cbn [session_item] in H; try tauto; eauto; try (right; eexists; apply session_type; eauto; fail).
  right. eexists. apply session_level. exact H.
Qed.
Lemma vector_broken : forall L, (exists s, parse_sdp_vector L = Ok s) \/ exists msg n, broken (map num L) msg n.
Proof.
  intro L. destruct (Nat.lt_ge_cases (List.length L) 4) as [L4|L4].
  { right. do 2 eexists. apply few_lines. rewrite map_length. exact L4. }
  assert (N4 : 4 <= List.length (map num L)) by (rewrite map_length; exact L4).
  destruct L as [|l0 [|l1 [|l2 L]]]; try (cbn in L4; lia). cbn [map] in *. unfold num at 1 2 3. unfold num at 1 2 3 in N4.
  destruct (l_type l0) eqn:T0; try (right; do 2 eexists; eapply not_version; [exact N4 | reflexivity | discriminate]).
  destruct (l_type l1) eqn:T1; try (right; do 2 eexists; eapply not_origin; [exact N4 | reflexivity | discriminate]).
  destruct (l_type l2) eqn:T2; try (right; do 2 eexists; eapply not_session; [exact N4 | reflexivity | discriminate]).
  set (h := [(l_number l0, TyVersion v); (l_number l1, TyOrigin o); (l_number l2, TySession s)]).
  assert (O : opening h) by (exists v, o, s; reflexivity).
  change ((l_number l0, TyVersion v) :: (l_number l1, TyOrigin o) :: (l_number l2, TySession s) :: map num L) with (h ++ map num L) in *.
  assert (Whole : forall head secs, map l_type L = head ++ flat_map section_lines secs -> Forall session_item head -> Forall section_ok secs ->
     (exists s1, parse_sdp_vector (l0 :: l1 :: l2 :: L) = Ok s1) \/ exists msg n, broken (h ++ map num L) msg n).
  { intros head secs Q F1 F2. assert (Ty : map l_type (l0 :: l1 :: l2 :: L) = TyVersion v :: TyOrigin o :: TySession s :: head ++ flat_map section_lines secs).
    { cbn [map]. rewrite T0, T1, T2, Q. reflexivity. }
    rewrite (vector_good v o s head secs _ Ty F1 F2 L4). set (a := assembled v o s head secs).
    destruct (sanity_check a) as [[]|e|] eqn:K; cbn [bind]; [left; eauto| |destruct (sanity_total a K)].
    apply sanity_breaks_fwd in K. destruct K as (msg & -> & K). right. exists msg, 0. apply (as_a_whole _ a msg N4); [|exact K].
    unfold types. rewrite map_app. unfold h. cbn [map snd app]. fold (types (map num L)). rewrite types_num, Q.
    apply Assembles_iff; [reflexivity|]. exists v, o, s, head, secs. auto. }
  destruct (first_bad _ (fun x => session_item (l_type x)) L (fun x => session_item_dec _)) as [F|(a & x & b & -> & F & Bx)].
  { apply (Whole (map l_type L) []); [cbn; rewrite app_nil_r; reflexivity | rewrite Forall_map; exact F | constructor]. }
  assert (Fa : Forall session_item (types (map num a))) by (rewrite types_num, Forall_map; exact F).
  destruct (session_item_msg _ Bx) as [(m & Tx)|(msg & Mx)].
  2:{ right. exists msg, (l_number x). apply (in_session _ h (map num a) (l_number x) (l_type x) (map num b) msg O); [|exact Fa | exact Mx]. rewrite map_app. reflexivity. }
  rewrite !map_app in Whole. cbn [map] in Whole. rewrite map_app in *. cbn [map] in *.
  destruct (media_cases b (media_new m)) as [(body & secs & Q & [G1 G2] & S)|[(body & z & r & -> & [G1 G2] & B)|(body & secs & y & cur & z & r & ml & -> & [G1 G2] & (ss & S1 & S2) & Ty & [C1 C2] & B)]].
  - apply (Whole (map l_type a) ((m, body) :: secs)); [rewrite Q, Tx; reflexivity | rewrite Forall_map; exact F | constructor; [split; [exact G1 | exact G2] | exact S]].
  - apply bad_after_msg in B. destruct B as (msg & B). right. exists msg, (l_number z).
    apply (in_media _ h (map num a) [] (l_number x) m (map num body) (l_number z) (l_type z) (map num r) msg O); [|exact Fa| | |].
    + rewrite map_app. unfold num at 2. rewrite Tx. reflexivity.
    + exists []. split; [reflexivity | constructor].
    + rewrite types_num. split; [exact G1 | exact G2].
    + rewrite types_num. exact B.
  - apply bad_after_msg in B. destruct B as (msg & B). right. exists msg, (l_number z).
    apply (in_media _ h (map num a) (map num (x :: body ++ secs)) (l_number y) ml (map num cur) (l_number z) (l_type z) (map num r) msg O); [|exact Fa| | |].
    + cbn [map]. rewrite !map_app. cbn [map]. rewrite map_app. unfold num at 5. rewrite Ty. cbn [app map]. rewrite <- !app_assoc. reflexivity.
    + exists ((m, map l_type body) :: ss). rewrite types_num. cbn [map flat_map section_lines fst snd]. rewrite map_app, Tx, S1. split; [reflexivity|].
      constructor; [split; [exact G1 | exact G2] | exact S2].
    + rewrite types_num. split; [exact C1 | exact C2].
    + rewrite types_num. exact B.
Qed.
Lemma vector_broken_iff : forall L msg n, parse_sdp_vector L = Err (PSequence msg n) <-> broken (map num L) msg n.
Proof.
  intros L msg n. split; [|apply broken_vector]. intro H. destruct (vector_broken L) as [(s & K)|(x & k & K)]; [congruence|].
  pose proof (broken_vector _ _ _ K) as K'. rewrite K' in H. injection H as <- <-. exact K.
Qed.

(** ** Whole texts *)
Lemma scan_no_seq : forall n ls L H W, Scan n ls L H W -> Forall (fun e => forall m k, e <> PSequence m k) H /\ Forall (fun e => forall m k, e <> PSequence m k) W.
Proof. intros n ls L H W S. induction S; try (split; constructor; fail); try assumption; destruct IHS as [A B]; split; auto; constructor; auto; discriminate. Qed.
Lemma scan_kept : forall n ls L H W, Scan n ls L H W -> H = [] -> exists us, kept n ls (map num L) us /\ (us = [] <-> W = []).
Proof.
  intros n ls L H W S. induction S as [n|n x r L H W B S IH|n x r L H W l B P S IH|n x r L H W e B P S IH|n x r L H W e B P S IH]; intro Q.
  - exists []. split; [constructor | tauto].
  - destruct (IH Q) as (us & K & I). exists us. split; [apply kept_blank; assumption | exact I].
  - destruct (IH Q) as (us & K & I). exists us. split; [|exact I]. destruct (line_ok_fields _ _ _ P) as [Ln _]. apply line_fwd in P. destruct P as (_ & _ & P).
    cbn [map]. unfold num at 1. rewrite Ln. apply kept_line; assumption.
  - destruct (IH Q) as (us & K & I). exists (n :: us). split; [|split; discriminate]. apply kept_unsupported; [exact B| |exact K]. apply (line_unsupported_iff _ n). eauto.
  - discriminate Q.
Qed.
Lemma kept_scan : forall n ls l us, kept n ls l us -> Forall (fun x => short (List.length x)) ls -> exists L W, Scan n ls L [] W /\ map num L = l /\ (us = [] <-> W = []).
Proof.
  intros n ls l us H. induction H as [n|n x r l us B H IH|n x r t l us B M H IH|n x r l us B U H IH]; intro F.
  - exists [], []. split; [constructor|]. split; [reflexivity | tauto].
  - inversion F as [|? ? Sx F']; subst. destruct (IH F') as (L & W & S & Q & I). exists L, W. split; [apply Scan_blank; assumption|]. split; assumption.
  - inversion F as [|? ? Sx F']; subst. destruct (IH F') as (L & W & S & Q & I). exists ({| l_number := n; l_type := t; l_text := x |} :: L), W. split; [|split; [cbn [map]; rewrite Q; reflexivity | exact I]].
    apply Scan_ok; [exact B| |exact S]. apply line_bwd; [|exact M]. destruct t as [[]| | | | | | |]; try exact Logic.I. exact Sx.
  - inversion F as [|? ? Sx F']; subst. destruct (IH F') as (L & W & S & Q & I). apply (line_unsupported_iff _ n) in U. destruct U as (e & U).
    exists L, (PUnsupported e x n :: W). split; [apply Scan_warn; assumption|]. split; [exact Q | split; discriminate].
Qed.
Lemma finish_seq : forall b L H W m n, Forall (fun e => forall m k, e <> PSequence m k) H -> Forall (fun e => forall m k, e <> PSequence m k) W ->
  (finish b L H W = Err (PSequence m n) <-> H = [] /\ (b = true -> W = []) /\ parse_sdp_vector L = Err (PSequence m n)).
Proof.
  intros b L H W m n FH FW. unfold finish. split.
  - intro K. assert (X : (b = true -> W = []) /\ match last_error H with Some e => Err e | None => s <- parse_sdp_vector L ;; Ok (session_with_warnings W s) end = Err (PSequence m n)).
    { destruct b; [|split; [discriminate | destruct W; exact K]]. destruct W as [|w W]; [split; [reflexivity | exact K]|]. injection K as ->. inversion FW as [|? ? Q _]; subst. destruct (Q m n eq_refl). }
    destruct X as [X1 X2]. destruct (last_error H) as [e|] eqn:Q.
    + injection X2 as ->. unfold last_error in Q. assert (I : In (PSequence m n) H). { apply in_rev. destruct (rev H); [discriminate Q|]. injection Q as ->. left. reflexivity. }
      rewrite Forall_forall in FH. destruct (FH _ I m n eq_refl).
    + apply last_error_nil in Q. split; [exact Q|]. split; [exact X1|]. destruct (parse_sdp_vector L) as [s|e|]; cbn [bind] in X2; congruence.
  - intros (-> & Wb & K). cbn [last_error rev hd_error]. rewrite K. cbn [bind]. destruct b; [|reflexivity]. rewrite (Wb eq_refl). reflexivity.
Qed.
Lemma sequence_iff : forall d b m n, doc_ok d -> short (List.length (doc_text d)) ->
  (parse_sdp (doc_text d) b = Err (PSequence m n) <->
   (51 <= byte_len (doc_text d))%N /\ exists l us, kept 0 (doc_lines d) l us /\ (b = true -> us = []) /\ broken l m n).
Proof.
  intros d b m n D Sh.
  assert (F : Forall (fun x => short (List.length x)) (doc_lines d)).
  { apply Forall_forall. intros x I. rewrite <- (lines_doc d D) in I. apply lines_length in I. unfold short in *. lia. }
  split.
  - intro H. destruct (N.lt_ge_cases (byte_len (doc_text d)) 51) as [B|B]; [destruct (parse_short (doc_text d) b B) as [e K]; congruence|].
    split; [exact B|]. destruct (parse_cases (doc_text d) B) as [(L & Hs & W & S)|P]; [|rewrite P in H; discriminate H].
    rewrite (parse_scan _ _ _ _ _ B S) in H. destruct (scan_no_seq _ _ _ _ _ S) as [N1 N2]. apply (finish_seq _ _ _ _ _ _ N1 N2) in H. destruct H as (-> & Wb & V).
    rewrite (lines_doc d D) in S. destruct (scan_kept _ _ _ _ _ S eq_refl) as (us & K & I). exists (map num L), us. split; [exact K|]. split; [intro Q; apply I, Wb, Q|].
    apply vector_broken_iff. exact V.
  - intros (B & l & us & K & Ub & V). destruct (kept_scan _ _ _ _ K F) as (L & W & S & <- & I). rewrite <- (lines_doc d D) in S. rewrite (parse_scan _ _ _ _ _ B S).
    destruct (scan_no_seq _ _ _ _ _ S) as [N1 N2]. apply (finish_seq _ _ _ _ _ _ N1 N2). split; [reflexivity|]. split; [intro Q; apply I, Ub, Q|]. apply vector_broken_iff. exact V.
Qed.
(** The line given is the one that is out of place. *)
Lemma kept_nth : forall n ls l us, kept n ls l us -> forall i t, In (i, t) l -> exists line, n <= i /\ nth_error ls (i - n) = Some line /\ ~ blank line /\ line_means line t.
Proof.
  intros n ls l us H. induction H as [n|n x r l us B H IH|n x r t l us B M H IH|n x r l us B U H IH]; intros i t' I.
  - destruct I.
  - destruct (IH i t' I) as (line & Q & K). exists line. split; [lia|]. replace (i - n) with (S (i - S n)) by lia. exact K.
  - destruct I as [I|I]; [injection I as <- <-; exists x; rewrite Nat.sub_diag; repeat split; auto|].
    destruct (IH i t' I) as (line & Q & K). exists line. split; [lia|]. replace (i - n) with (S (i - S n)) by lia. exact K.
  - destruct (IH i t' I) as (line & Q & K). exists line. split; [lia|]. replace (i - n) with (S (i - S n)) by lia. exact K.
Qed.
Lemma section_whole : forall m msg, section_breaks m msg -> In msg whole_rules.
Proof. intros m msg H. destruct H; unfold whole_rules; cbn [In]; tauto. Qed.
Lemma session_whole : forall s msg, session_breaks s msg -> In msg whole_rules.
Proof. intros s msg H. destruct H; [unfold whole_rules; cbn [In]; tauto ..|]. eapply section_whole. eassumption. Qed.
Lemma sequence_line : forall d b m n, doc_ok d -> short (List.length (doc_text d)) -> parse_sdp (doc_text d) b = Err (PSequence m n) ->
  In m whole_rules \/
  exists line t, nth_error (doc_lines d) n = Some line /\ ~ blank line /\ line_means line t /\ (misplaced_in_session t m \/ exists before, misplaced_in_media before t m).
Proof.
  intros d b m n D Sh H. apply (sequence_iff d b m n D Sh) in H. destruct H as (_ & l & us & K & _ & V).
  destruct V as [H|i t rest H1 H2 H3|i v j t rest H1 H2 H3|i v j o k t rest H1 H2 H3|h pre i t post msg O H1 H2 H3|h pre secs k ml cur i t post msg O H1 H2 H3 H4 H5|s msg H1 H2 H3];
    try (left; unfold whole_rules; cbn [In]; tauto).
  - right. destruct (kept_nth _ _ _ _ K i t) as (line & _ & Q & B & M). { rewrite H1, !in_app_iff. right. right. left. reflexivity. }
    rewrite Nat.sub_0_r in Q. exists line, t. auto.
  - right. destruct (kept_nth _ _ _ _ K i t) as (line & _ & Q & B & M). { rewrite H1, !in_app_iff. right. right. right. right. rewrite in_app_iff. right. left. reflexivity. }
    rewrite Nat.sub_0_r in Q. exists line, t. eauto 8.
  - left. exact (session_whole s msg H3).
Qed.
End WithExt.

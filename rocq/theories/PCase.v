(** * Case insensitivity (C15) *)
From Coq Require Import List NArith ZArith Bool Lia ZifyBool ZifyN ZifyNat Ascii String.
From Verif Require Import Str Num Net Types Ext Show Address AttrParse Media Session
  StrLemmas NumLemmas PPanic PApi SpecApi SpecDoc SpecVal SpecCase PDoc PDoc2 PDoc3 PVal PVal2 PVal3 PVal4 PVal5 PVal6 PVal7 PVal8 PVal9 PVal11.
Import ListNotations.
Open Scope N_scope.
Open Scope list_scope.

(** ** Letters *)
Lemma recased_refl : forall s, recased s s.
Proof. induction s; constructor; [reflexivity | assumption]. Qed.
Lemma recased_sym : forall s t, recased s t -> recased t s.
Proof. intros s t R. induction R; constructor; [symmetry; assumption | assumption]. Qed.
Lemma upper_recased : forall x y, recased x y -> to_upper x = to_upper y.
Proof.
  intros x y R. induction R as [|c d x y L R IH]; [reflexivity|].
  change (upper_char c ++ to_upper x = upper_char d ++ to_upper y). rewrite IH. f_equal. clear IH.
  unfold same_letter in L.
  destruct (ascii_lower_cases c) as [[H1 E1]|[H1 E1]];
    destruct (ascii_lower_cases d) as [[H2 E2]|[H2 E2]]; rewrite E1, E2 in L; try lia.
  - f_equal. lia.
  - subst d. rewrite upper_char_ascii by lia. unfold upper_char.
    replace ((97 <=? c + 32) && (c + 32 <=? 122)) with true by lia. f_equal. lia.
  - subst c. rewrite (upper_char_ascii d) by lia. unfold upper_char.
    replace ((97 <=? d + 32) && (d + 32 <=? 122)) with true by lia. f_equal. lia.
  - f_equal. exact L.
Qed.
Lemma letter_special : forall c d x, same_letter c d -> (x < 65 \/ 90 < x < 97 \/ 122 < x) -> (c = x <-> d = x).
Proof.
  unfold same_letter. intros c d x L H.
  destruct (ascii_lower_cases c) as [[H1 E1]|[H1 E1]];
    destruct (ascii_lower_cases d) as [[H2 E2]|[H2 E2]]; rewrite E1, E2 in L; lia.
Qed.
Lemma letter_ws : forall c d, same_letter c d -> is_ws c = is_ws d.
Proof.
  unfold same_letter. intros c d L.
  destruct (ascii_lower_cases c) as [[H1 E1]|[H1 E1]];
    destruct (ascii_lower_cases d) as [[H2 E2]|[H2 E2]]; rewrite E1, E2 in L; try (subst; reflexivity).
  - f_equal. lia.
  - subst d. unfold is_ws. lia.
  - subst c. unfold is_ws. lia.
Qed.
Lemma recased_contains : forall x s t, recased s t -> (x < 65 \/ 90 < x < 97 \/ 122 < x) ->
  (In x s <-> In x t).
Proof.
  intros x s t R H. induction R as [|c d s t L R IH]; [tauto|]. cbn [In].
  pose proof (letter_special c d x L H). tauto.
Qed.

(** ** Word lists *)
Lemma where_length : forall k l l', recased_where k l l' -> List.length l = List.length l'.
Proof.
  intros k l; revert k. induction l as [|x l IH]; intros k [|x' l'] H; cbn in H; try contradiction; auto.
  destruct H as [_ H]. cbn. f_equal. eapply IH, H.
Qed.
Lemma where_nil : forall l l', recased_where [] l l' -> l = l'.
Proof.
  induction l as [|x l IH]; intros [|x' l'] H; cbn in H; try contradiction; auto.
  destruct H as [-> H]. f_equal. apply IH, H.
Qed.
Lemma words_empty : forall k v v', words_variant k v v' ->
  (split_whitespace v = [] <-> split_whitespace v' = []).
Proof.
  intros k v v' (l & l' & W & W' & R). apply words_sws in W, W'. apply where_length in R.
  rewrite W, W'. destruct l, l'; cbn in R; split; intro; congruence.
Qed.
Lemma sws_nil : forall v, split_whitespace v = [] <-> trim v = [].
Proof.
  intro v. split; intro H.
  - apply words_sws in H. inversion H as [w B| |]; subst.
    symmetry. apply core_trim. exists v, []. cbn [app]. rewrite app_nil_r.
    split; [reflexivity|]. split; [exact B|]. split; [constructor|left; reflexivity].
  - rewrite <- sws_trim, H. reflexivity.
Qed.

(** ** Results *)
Definition unsupported_err (e : ierr) : bool := match e with EUnsupported _ => true | _ => false end.
Definition agree {A} (x y : res ierr A) : Prop :=
  match x, y with
  | Ok a, Ok b => a = b
  | Err e, Err f => unsupported_err e = unsupported_err f
  | Panic, Panic => True
  | _, _ => False
  end.
Lemma agree_refl : forall A (x : res ierr A), agree x x.
Proof. intros A []; cbn; auto. Qed.
Lemma agree_eq : forall A (x y : res ierr A), x = y -> agree x y.
Proof. intros A x y ->. apply agree_refl. Qed.
Lemma agree_bind : forall A B (x y : res ierr A) (f g : A -> res ierr B),
  agree x y -> (forall a, agree (f a) (g a)) -> agree (bind x f) (bind y g).
Proof.
  intros A B x y f g H K. destruct x, y; cbn in H; try contradiction; subst; cbn [bind]; auto.
Qed.

Section WithExt.
Context {E : Ext}.

(** ** Keywords *)
Lemma network_type_case : forall s t, recased s t -> parse_network_type s = parse_network_type t.
Proof. intros s t R. unfold parse_network_type. rewrite (upper_recased s t R). reflexivity. Qed.
Lemma address_type_case : forall s t, recased s t -> parse_address_type s = parse_address_type t.
Proof. intros s t R. unfold parse_address_type. rewrite (upper_recased s t R). reflexivity. Qed.
Lemma addr_type_case : forall s t, recased s t -> agree (addr_type_from_str s) (addr_type_from_str t).
Proof.
  intros s t R. unfold addr_type_from_str. rewrite (upper_recased s t R).
  destruct (assoc_str _ _); reflexivity.
Qed.
Lemma media_token_case : forall s t, recased s t -> agree (parse_media_token s) (parse_media_token t).
Proof.
  intros s t R. unfold parse_media_token. rewrite (lower_recased s t R).
  destruct (assoc_str _ _); reflexivity.
Qed.
Lemma protocol_token_case : forall s t, recased s t -> agree (parse_protocol_token s) (parse_protocol_token t).
Proof.
  intros s t R. unfold parse_protocol_token. rewrite (upper_recased s t R).
  destruct (assoc_str _ _); reflexivity.
Qed.

(** ** Lines other than attributes *)
Ltac wv H := let l := fresh "l" in let l' := fresh "l" in
  destruct H as (l & l' & W & W' & R); apply words_sws in W, W'; rewrite W, W'; clear W W'.
Lemma media_case : forall v v', words_variant [true; false; true] v v' -> agree (parse_media v) (parse_media v').
Proof.
  intros v v' H. unfold parse_media. wv H. cbv zeta. rewrite (where_length _ _ _ R).
  destruct (Nat.ltb_spec (List.length l0) 4) as [|L]; [reflexivity|].
  destruct l as [|a l], l0 as [|a' l0]; cbn in R; try contradiction; [cbn in L; lia|]. destruct R as [Ra R].
  destruct l as [|b l], l0 as [|b' l0]; cbn in R; try contradiction; [cbn in L; lia|]. destruct R as [<- R].
  destruct l as [|c l], l0 as [|c' l0]; cbn in R; try contradiction; [cbn in L; lia|]. destruct R as [Rc R].
  apply where_nil in R. subst l0. cbn [idx nth_error skipn].
  cbn [bind].
  apply agree_bind; [apply media_token_case, Ra|]. intro m.
  apply agree_bind; [apply agree_refl|]. intro port.
  destruct (65535 <? port); [reflexivity|].
  apply agree_bind; [apply agree_refl|]. intro pc.
  apply agree_bind; [apply protocol_token_case, Rc|]. intro p. apply agree_refl.
Qed.
Lemma origin_case : forall v v', words_variant [false; false; false; true; true] v v' ->
  agree (parse_origin v) (parse_origin v').
Proof.
  intros v v' H. unfold parse_origin. wv H. cbv zeta.
  destruct l as [|a l], l0 as [|a' l0]; cbn in R; try contradiction; [reflexivity|]. destruct R as [<- R].
  destruct l as [|b l], l0 as [|b' l0]; cbn in R; try contradiction; [reflexivity|]. destruct R as [<- R].
  apply agree_bind; [apply agree_refl|]. intro.
  destruct l as [|c l], l0 as [|c' l0]; cbn in R; try contradiction; [reflexivity|]. destruct R as [<- R].
  apply agree_bind; [apply agree_refl|]. intro.
  destruct l as [|d l], l0 as [|d' l0]; cbn in R; try contradiction; [reflexivity|]. destruct R as [Rd R].
  apply agree_bind; [apply agree_eq, network_type_case, Rd|]. intro.
  destruct l as [|e l], l0 as [|e' l0]; cbn in R; try contradiction; [reflexivity|]. destruct R as [Re R].
  apply agree_bind; [apply agree_eq, address_type_case, Re|]. intro.
  apply where_nil in R. subst l0. destruct l; apply agree_refl.
Qed.
Lemma connection_case : forall v v', words_variant [true; true] v v' ->
  agree (parse_connection v) (parse_connection v').
Proof.
  intros v v' H. unfold parse_connection. wv H. cbv zeta. rewrite (where_length _ _ _ R).
  destruct (negb _) eqn:L; [reflexivity|]. apply negb_false_iff, PeanoNat.Nat.eqb_eq in L.
  destruct l as [|a l], l0 as [|a' l0]; cbn in R; try contradiction; [discriminate|]. destruct R as [Ra R].
  destruct l as [|b l], l0 as [|b' l0]; cbn in R; try contradiction; [discriminate|]. destruct R as [Rb R].
  apply where_nil in R. subst l0. cbn [idx nth_error bind].
  apply agree_bind; [apply agree_eq, network_type_case, Ra|]. intro.
  apply agree_bind; [apply agree_eq, address_type_case, Rb|]. intro.
  apply agree_refl.
Qed.
Lemma bandwidth_case : forall v v', bandwidth_variant v v' -> 
  agree (parse_bandwidth (trim v)) (parse_bandwidth (trim v')).
Proof.
  intros v v' (t & t' & ty & ty' & n & C & C' & K & K' & V).
  apply core_trim in C, C'. subst t t'.
  destruct V as [->|[R M]].
  { destruct K as [-> _], K' as [-> _]. apply agree_refl. }
  destruct K as [K NI], K' as [K' NI']. unfold parse_bandwidth. rewrite K, K'.
  change 58 with c_colon in *.
  rewrite !split_app by (apply contains_not_In; assumption).
  cbn [List.length]. destruct (split c_colon n) as [|x [|y l]]; cbn; try reflexivity.
  unfold agree. destruct (p_u32 x) as [k|e|]; cbn [bind]; auto.
  rewrite <- (upper_recased ty ty' R).
  unfold bandwidth_names in M. apply Exists_exists in M. destruct M as [name [I M]].
  cbn [In] in I. destruct I as [<-|[<-|[<-|[]]]]; apply means_upper_iff in M; try reflexivity; rewrite M; reflexivity.
Qed.

(** ** Attributes *)
Lemma group_case : forall v v', words_variant [true] v v' -> agree (parse_group v) (parse_group v').
Proof.
  intros v v' H. unfold parse_group. wv H.
  destruct l as [|a l], l0 as [|a' l0]; cbn in R; try contradiction; [reflexivity|]. destruct R as [Ra R].
  apply where_nil in R. subst l0. rewrite (upper_recased _ _ Ra). apply agree_refl.
Qed.
Lemma ssrc_group_case : forall v v', words_variant [true] v v' -> agree (parse_ssrc_group v) (parse_ssrc_group v').
Proof.
  intros v v' H. unfold parse_ssrc_group. wv H.
  destruct l as [|a l], l0 as [|a' l0]; cbn in R; try contradiction; [reflexivity|]. destruct R as [Ra R].
  apply where_nil in R. subst l0. rewrite (upper_recased _ _ Ra). apply agree_refl.
Qed.
Lemma rtcp_case : forall v v', words_variant [false; true; true] v v' -> agree (parse_rtcp v) (parse_rtcp v').
Proof.
  intros v v' H. unfold parse_rtcp. wv H.
  destruct l as [|a l], l0 as [|a' l0]; cbn in R; try contradiction; [reflexivity|]. destruct R as [<- R].
  apply agree_bind; [apply agree_refl|]. intro.
  destruct l as [|b l], l0 as [|b' l0]; cbn in R; try contradiction; [reflexivity|]. destruct R as [Rb R].
  apply agree_bind; [apply agree_eq, network_type_case, Rb|]. intro.
  destruct l as [|c l], l0 as [|c' l0]; cbn in R; try contradiction; [reflexivity|]. destruct R as [Rc R].
  apply where_nil in R. subst l0.
  apply agree_bind; [apply addr_type_case, Rc|]. intro. apply agree_refl.
Qed.
Lemma sctpmap_case : forall v v', words_variant [false; true] v v' -> agree (parse_sctpmap v) (parse_sctpmap v').
Proof.
  intros v v' H. unfold parse_sctpmap. wv H. cbv zeta. rewrite (where_length _ _ _ R).
  destruct (negb _) eqn:L; [reflexivity|]. apply negb_false_iff, PeanoNat.Nat.eqb_eq in L.
  destruct l as [|a l], l0 as [|a' l0]; cbn in R; try contradiction; [discriminate|]. destruct R as [<- R].
  destruct l as [|b l], l0 as [|b' l0]; cbn in R; try contradiction; [discriminate|]. destruct R as [Rb R].
  apply where_nil in R. subst l0. cbn [idx nth_error bind].
  rewrite (lower_recased _ _ Rb). apply agree_refl.
Qed.
Lemma setup_case : forall v v' , recased (trim v) (trim v') -> agree (parse_setup (trim v)) (parse_setup (trim v')).
Proof. intros v v' R. unfold parse_setup. rewrite (lower_recased _ _ R). apply agree_refl. Qed.
Lemma extmap_case : forall v v', extmap_variant v v' -> agree (parse_extmap v) (parse_extmap v').
Proof.
  intros v v' (id & id' & l & a & b & b' & W & W' & C & C' & R).
  apply words_sws in W, W'. unfold parse_extmap. rewrite W, W'. cbv zeta. cbn [List.length].
  destruct (Nat.ltb _ 2); [reflexivity|]. cbn [idx nth_error bind].
  assert (Q : forall i x, cut 47 i a x -> contains c_slash i = true).
  { intros i x [-> _]. apply contains_In, in_app_iff. right. left. reflexivity. }
  rewrite (Q _ _ C), (Q _ _ C'). cbn [negb]. apply cut_splitn2 in C, C'. change 47 with c_slash in *.
  rewrite C, C'. cbn [idx nth_error bind]. rewrite (lower_recased _ _ R). apply agree_refl.
Qed.
Lemma extension_case : forall c n n' v v',
  known_recased (fun n => Exists (means n) extension_names) n n' ->
  known_recased (fun _ => means n "tcptype") v v' ->
  candidate_extension c n v = candidate_extension c n' v'.
Proof.
  intros c n n' v v' [<-|[R M]] [<-|[R' T]]; [reflexivity| | |].
  - apply means_iff in T; [|reflexivity]. unfold candidate_extension. rewrite T. cbv zeta.
    rewrite (lower_recased _ _ R'). reflexivity.
  - unfold candidate_extension. rewrite <- (lower_recased _ _ R). cbv zeta.
    apply Exists_exists in M. destruct M as [name [I M]]. unfold extension_names in I. cbn [In] in I.
    destruct I as [<-|[<-|[<-|[<-|[<-|[<-|[]]]]]]]; apply means_iff in M; try reflexivity; rewrite M; reflexivity.
  - apply means_iff in T; [|reflexivity]. unfold candidate_extension. rewrite <- (lower_recased _ _ R), T. cbv zeta.
    rewrite (lower_recased _ _ R'). reflexivity.
Qed.
Lemma extensions_case : forall l l', extensions_variant l l' -> forall c,
  candidate_extensions c l = candidate_extensions c l'.
Proof.
  intros l l' H. induction H as [|n|n n' v v' l l' K T H IH]; intro c; [reflexivity|reflexivity|].
  cbn [candidate_extensions]. rewrite (extension_case c _ _ _ _ K T).
  destruct (candidate_extension c n' v'); cbn [bind]; auto.
Qed.
Lemma extensions_length : forall l l', extensions_variant l l' -> List.length l = List.length l'.
Proof. intros l l' H. induction H; cbn; auto. Qed.
Lemma candidate_case : forall v v', candidate_variant v v' -> agree (parse_candidate v) (parse_candidate v').
Proof.
  intros v v' (l & l' & W & W' & R & X). apply words_sws in W, W'. apply agree_eq.
  unfold parse_candidate. rewrite W, W'. cbv zeta. clear W W'.
  assert (LL : List.length l = List.length l').
  { rewrite <- (firstn_skipn 8 l), <- (firstn_skipn 8 l'), !app_length.
    rewrite (where_length _ _ _ R), (extensions_length _ _ X). reflexivity. }
  rewrite <- LL. destruct (PeanoNat.Nat.ltb_spec (List.length l) 8) as [|L]; [reflexivity|].
  do 8 (destruct l as [|? l]; [cbn in L; lia|]; destruct l' as [|? l']; [discriminate LL|]).
  cbn [firstn skipn recased_where tl] in R, X.
  destruct R as (<- & <- & R2 & <- & <- & <- & R6 & R7 & _).
  cbn [idx nth_error bind skipn].
  rewrite (lower_recased _ _ R2), (lower_recased _ _ R6), (lower_recased _ _ R7).
  destruct (p_u32 _); cbn [bind]; auto. destruct (ok_or _ _); cbn [bind]; auto.
  destruct (p_u64 _); cbn [bind]; auto. destruct (address_from_str _); cbn [bind]; auto.
  destruct (p_u32 _); cbn [bind]; auto. destruct (65535 <? _); auto.
  destruct (negb _); auto. destruct (ok_or _ _); cbn [bind]; auto.
  rewrite (extensions_case _ _ X). reflexivity.
Qed.
Lemma parameter_case : forall p t t', parameter_variant t t' -> fmtp_parameter p t = fmtp_parameter p t'.
Proof.
  intros p t t' [<-|(n & n' & x & C & C' & K)]; [reflexivity|].
  destruct K as [<-|[R M]].
  { destruct C as [-> _], C' as [-> _]. reflexivity. }
  apply cut_splitn2 in C, C'. unfold fmtp_parameter. change c_eq with 61. rewrite C, C'. cbv zeta.
  rewrite <- (upper_recased _ _ R).
  repeat match goal with |- (if str_eqb (to_upper n) ?k then _ else _) = _ =>
    let Q := fresh "Q" in destruct (str_eqb_spec (to_upper n) k) as [Q|Q]; [reflexivity|] end.
  exfalso. apply Exists_exists in M. destruct M as [name [I M]]. unfold fmtp_names in I. cbn [In] in I.
  repeat (destruct I as [<-|I]; [apply means_upper_iff in M; [contradiction|reflexivity]|]).
  contradiction.
Qed.
Lemma parameters_case : forall l l', Forall2 parameter_variant l l' -> forall p,
  foldM fmtp_parameter (filter non_empty l) p = foldM fmtp_parameter (filter non_empty l') p.
Proof.
  intros l l' F. induction F as [|t t' l l' V F IH]; intro p; [reflexivity|]. cbn [filter].
  assert (N : non_empty t = non_empty t').
  { destruct V as [->|(n & n' & x & [-> _] & [-> _] & _)]; [reflexivity|]. destruct n, n'; reflexivity. }
  rewrite <- N. destruct (non_empty t); [|apply IH]. cbn [foldM].
  rewrite (parameter_case p _ _ V). destruct (fmtp_parameter p t'); cbn [bind]; auto.
Qed.
Lemma fields_inj : forall c s s' l, fields c s l -> fields c s' l -> s = s'.
Proof.
  intros c s s' l F; revert s'. induction F as [s H|t s l H F IH]; intros s' F'.
  - inversion F' as [|t2 s2 l2 H2 F2]; subst; [reflexivity|inversion F2].
  - inversion F' as [|t2 s2 l2 H2 F2]; subst; [inversion F|]. f_equal. f_equal. apply IH, F2.
Qed.
Lemma fields_contains : forall c d s l, c <> d -> fields c s l -> (In d s <-> Exists (In d) l).
Proof.
  intros c d s l D F. induction F as [s H|t s l H F IH].
  - rewrite Exists_cons, Exists_nil. tauto.
  - rewrite Exists_cons, in_app_iff. cbn [In]. rewrite IH. intuition congruence.
Qed.
Lemma fmtp_case : forall v v', fmtp_variant v v' -> agree (parse_fmtp (trim v)) (parse_fmtp (trim v')).
Proof.
  intros v v' (t & t' & pt & b & b' & l & l' & C & C' & K & K' & F & F' & V).
  apply core_trim in C, C'. subst t t'. apply cut_splitn2 in K, K'. unfold parse_fmtp.
  change c_space with 32. rewrite K, K'. cbv zeta. cbn [List.length Nat.eqb negb idx nth_error bind skipn foldM].
  apply agree_eq.
  assert (B : fmtp_block default_fmtp_params b = fmtp_block default_fmtp_params b').
  { unfold fmtp_block. destruct (contains c_eq b) eqn:Q.
    - assert (Q' : contains c_eq b' = true).
      { apply contains_In. apply contains_In in Q. apply (fields_contains 59 c_eq b l ltac:(discriminate) F) in Q.
        apply (fields_contains 59 c_eq b' l' ltac:(discriminate) F').
        clear F F'. induction V as [|x x' l l' V VV IH]; [inversion Q|].
        apply Exists_cons in Q. apply Exists_cons. destruct Q as [Q|Q]; [left|right; auto].
        destruct V as [<-|(n & n' & y & _ & [-> _] & _)]; [exact Q|].
        apply in_app_iff. right. left. reflexivity. }
      rewrite Q'. apply fields_split in F, F'. change c_semi with 59. rewrite F, F'. apply parameters_case, V.
    - assert (b = b'); [|subst b'; rewrite Q; reflexivity].
      assert (l = l'); [|subst l'; eapply fields_inj; eassumption].
      assert (Q2 : ~ Exists (In c_eq) l).
      { intro X. apply (fields_contains 59 c_eq b l ltac:(discriminate) F) in X. apply contains_In in X. congruence. }
      clear - V Q2. induction V as [|x x' l l' V VV IH]; [reflexivity|].
      rewrite Exists_cons in Q2. f_equal; [|tauto].
      destruct V as [|(n & n' & y & [-> _] & _)]; [assumption|]. exfalso. apply Q2. left.
      apply in_app_iff. right. left. reflexivity. }
  rewrite B. reflexivity.
Qed.

(** Every attribute value is trimmed before its parser sees it. *)
Lemma words_variant_trim : forall k v v', words_variant k v v' -> words_variant k (trim v) (trim v').
Proof.
  intros k v v' (l & l' & W & W' & R). apply words_sws in W, W'. exists l, l'.
  split; [apply words_sws; rewrite sws_trim; exact W|]. split; [apply words_sws; rewrite sws_trim; exact W'|exact R].
Qed.
Lemma words_trim : forall v l, words v l -> words (trim v) l.
Proof. intros v l W. apply words_sws. rewrite sws_trim. apply words_sws, W. Qed.
Lemma keyword_case : forall name v v', keyword_variant name v v' ->
  match assoc_str (to_lower name) attr_parsers with
  | Some p => agree (p (trim v)) (p (trim v'))
  | None => True
  end.
Proof.
  intros name v v' H. unfold keyword_variant in H.
  destruct H as [<-|[[M H]|[[M H]|[[M H]|[[M H]|[[M H]|[[M H]|[[M H]|[M H]]]]]]]]].
  { destruct (assoc_str _ _); [apply agree_refl|exact I]. }
  all: apply means_iff in M; [|reflexivity]; rewrite M.
  - change (agree (parse_candidate (trim v)) (parse_candidate (trim v'))). apply candidate_case.
    destruct H as (l & l' & W & W' & H). exists l, l'. auto using words_trim.
  - change (agree (parse_extmap (trim v)) (parse_extmap (trim v'))). apply extmap_case.
    destruct H as (id & id' & l & a & b & b' & W & W' & H). exists id, id', l, a, b, b'. auto using words_trim.
  - change (agree (parse_fmtp (trim v)) (parse_fmtp (trim v'))). apply fmtp_case, H.
  - change (agree (parse_group (trim v)) (parse_group (trim v'))). apply group_case, words_variant_trim, H.
  - change (agree (parse_rtcp (trim v)) (parse_rtcp (trim v'))). apply rtcp_case, words_variant_trim, H.
  - change (agree (parse_sctpmap (trim v)) (parse_sctpmap (trim v'))). apply sctpmap_case, words_variant_trim, H.
  - change (agree (parse_setup (trim v)) (parse_setup (trim v'))). apply setup_case.
    destruct H as (t & t' & C & C' & R). apply core_trim in C, C'. subst. exact R.
  - change (agree (parse_ssrc_group (trim v)) (parse_ssrc_group (trim v'))). apply ssrc_group_case, words_variant_trim, H.
Qed.
Lemma attribute_case : forall v v', attribute_variant v v' -> agree (parse_attribute v) (parse_attribute v').
Proof.
  intros v v' (t & t' & C & C' & H). apply core_trim in C, C'. unfold parse_attribute. rewrite <- C, <- C'.
  apply agree_bind; [|intro; reflexivity]. clear C C'. unfold attr_from_str. cbv zeta.
  destruct H as [[N R]|(name & name' & rest & rest' & K & K' & R & V)].
  - assert (N' : ~ In 58 t') by (rewrite <- (recased_contains 58 t t' R) by lia; exact N).
    assert (S : forall x, ~ In 58 x -> splitn 2 c_colon x = [x]).
    { intros x X. cbn [splitn]. destruct (split_once c_colon x) as [[p q]|] eqn:Q; [|reflexivity].
      apply cut_once in Q. destruct Q as [-> _]. exfalso. apply X, in_app_iff. right. left. reflexivity. }
    rewrite (S t N), (S t' N'). cbn [idx nth_error bind List.length Nat.ltb Nat.leb andb].
    rewrite (lower_recased _ _ R). apply agree_refl.
  - apply cut_splitn2 in K, K'. change c_colon with 58. rewrite K, K'.
    cbn [idx nth_error bind List.length Nat.ltb Nat.leb andb]. rewrite <- (lower_recased _ _ R).
    destruct (mem_str _ _); [reflexivity|]. pose proof (keyword_case _ _ _ V) as Q.
    destruct (assoc_str _ attr_parsers); [exact Q|apply agree_refl].
Qed.

(** ** Lines *)
Lemma trim_nil_words : forall k v v', words_variant k v v' -> is_empty (trim v) = is_empty (trim v').
Proof.
  intros k v v' H. apply words_empty in H. rewrite !sws_nil in H.
  destruct (trim v), (trim v'); try reflexivity; exfalso; destruct H as [H1 H2];
    [specialize (H1 eq_refl)|specialize (H2 eq_refl)]; discriminate.
Qed.
Lemma value_empty : forall c v v', value_variant c v v' -> is_empty (trim v) = is_empty (trim v').
Proof.
  intros c v v' [<-|[[_ H]|[[_ H]|[[_ H]|[[_ H]|[_ H]]]]]]; try (eapply trim_nil_words; eassumption); [reflexivity| |].
  - destruct H as (t & t' & C & C' & H). apply core_trim in C, C'. subst t t'.
    destruct H as [[_ R]|(n & n' & r & r' & [K _] & [K' _] & _)].
    + destruct R; reflexivity.
    + rewrite K, K'. destruct n, n'; reflexivity.
  - destruct H as (t & t' & ty & ty' & n & C & C' & [K _] & [K' _] & _). apply core_trim in C, C'. subst t t'.
    rewrite K, K'. destruct ty, ty'; reflexivity.
Qed.
Lemma value_case : forall c v v', value_variant c v v' ->
  agree (parse_value [c] (trim v) v) (parse_value [c] (trim v') v').
Proof.
  intros c v v' [<-|[[-> H]|[[-> H]|[[-> H]|[[-> H]|[-> H]]]]]].
  - apply agree_refl.
  - apply attribute_case. destruct H as (t & t' & C & C' & H). exists t, t'.
    apply core_trim in C, C'. split; [apply core_trim; rewrite trim_idem; exact C|].
    split; [apply core_trim; rewrite trim_idem; exact C'|exact H].
  - apply bandwidth_case, H.
  - apply connection_case, words_variant_trim, H.
  - apply media_case, words_variant_trim, H.
  - apply origin_case, words_variant_trim, H.
Qed.
Lemma erase_line_error : forall x y n e f, unsupported_err e = unsupported_err f ->
  erase_detail (line_error x n e) = erase_detail (line_error y n f).
Proof. intros x y n e f H. destruct e, f; cbn in H; try discriminate; reflexivity. Qed.
Lemma line_case : forall x x' n, line_variant x x' ->
  erase_detail_line (parse_sdp_line x n) = erase_detail_line (parse_sdp_line x' n).
Proof.
  intros x x' n [<-|(w1 & c & c' & w2 & v & v' & -> & -> & B1 & B2 & L & V)]; [reflexivity|].
  destruct (N.eq_dec c 61) as [->|C].
  { assert (c' = 61) by (apply (letter_special _ _ 61 L); [lia|reflexivity]). subst c'.
    assert (G : forall z, erase_detail_line (parse_sdp_line (w1 ++ [61] ++ w2 ++ 61 :: z) n) = Err (PLine EIpAddress [] n)).
    { intro z. unfold parse_sdp_line.
      replace (contains c_eq (w1 ++ [61] ++ w2 ++ 61 :: z)) with true
        by (symmetry; apply contains_In, in_app_iff; right; left; reflexivity).
      change ([61] ++ w2 ++ 61 :: z) with (c_eq :: w2 ++ 61 :: z).
      rewrite splitn2_app by (apply ws_not_eq, B1). cbn [negb]. cbv zeta.
      replace (trim w1) with (@nil N); [reflexivity|].
      symmetry. apply sws_nil, words_sws. constructor. exact B1. }
    rewrite !G. reflexivity. }
  assert (C' : c' <> 61) by (intro K; apply C, (letter_special _ _ 61 L); [lia|exact K]).
  assert (S : forall c z, c <> 61 -> parse_sdp_line (w1 ++ [c] ++ w2 ++ 61 :: z) n =
    let line := w1 ++ [c] ++ w2 ++ 61 :: z in
    if 1 <? byte_len (trim [c]) then Err (PLine (gen "type too long") line n)
    else if is_empty (trim [c]) then Err (PLine (gen "type is empty") line n)
    else if is_empty (trim z) && negb (str_eqb (to_lower (trim [c])) (lit "s"))
         then Err (PLine (gen "value is empty") line n)
         else match parse_value (to_lower (trim [c])) (trim z) z with
              | Ok ty => Ok {| l_number := n; l_type := ty; l_text := line |}
              | Err e => Err (line_error line n e)
              | Panic => Panic
              end).
  { intros d z D. unfold parse_sdp_line. cbv zeta.
    replace (contains c_eq (w1 ++ [d] ++ w2 ++ 61 :: z)) with true
      by (symmetry; apply contains_In; rewrite !in_app_iff; right; right; right; left; reflexivity).
    replace (w1 ++ [d] ++ w2 ++ 61 :: z) with ((w1 ++ [d] ++ w2) ++ c_eq :: z) by (rewrite <- !app_assoc; reflexivity).
    rewrite splitn2_app.
    2:{ apply contains_not_In. rewrite !in_app_iff. intros [K|[[K|[]]|K]]; [|contradiction|].
        - apply contains_In in K. rewrite ws_not_eq in K by assumption. discriminate.
        - apply contains_In in K. rewrite ws_not_eq in K by assumption. discriminate. }
    cbn [negb]. rewrite !trim_pad3 by assumption. reflexivity. }
  rewrite (S c v C), (S c' v' C'). clear S. cbv zeta.
  assert (T : forall d, trim [d] = if is_ws d then [] else [d]).
  { intro d. destruct (is_ws d) eqn:W.
    - apply sws_nil, words_sws. constructor. constructor; [exact W|constructor].
    - symmetry. apply core_trim. exists [], []. split; [reflexivity|]. split; [constructor|]. split; [constructor|].
      right. split; [exists d, []|exists d, []]; auto. }
  rewrite !T. rewrite <- (letter_ws _ _ L). destruct (is_ws c); [reflexivity|].
  assert (BL : byte_len [c] = byte_len [c']).
  { unfold same_letter in L.
    destruct (ascii_lower_cases c) as [[H1 E1]|[H1 E1]];
      destruct (ascii_lower_cases c') as [[H2 E2]|[H2 E2]]; rewrite E1, E2 in L; cbn; unfold utf8_len.
    - replace c' with c by lia. reflexivity.
    - subst c'. replace (c <? 128) with true by lia. replace (c + 32 <? 128) with true by lia. reflexivity.
    - subst c. replace (c' <? 128) with true by lia. replace (c' + 32 <? 128) with true by lia. reflexivity.
    - subst c'. reflexivity. }
  rewrite <- BL. destruct (N.ltb_spec 1 (byte_len [c])) as [|BB]; [reflexivity|]. cbn [is_empty].
  assert (LL : to_lower [c'] = to_lower [c]).
  { symmetry. apply lower_recased. constructor; [exact L|constructor]. }
  rewrite LL, (ascii_lower_char c BB), (value_empty _ _ _ V).
  destruct (_ && _); [reflexivity|].
  pose proof (value_case _ _ _ V) as A.
  destruct (parse_value [ascii_lower c] (trim v) v), (parse_value [ascii_lower c] (trim v') v'); cbn in A; try contradiction.
  - subst. reflexivity.
  - cbn. f_equal. apply erase_line_error, A.
  - reflexivity.
Qed.

(** ** Texts *)
Lemma variant_blank : forall x y, line_variant x y -> (blank x <-> blank y).
Proof.
  intros x y [->|(w1 & c & c' & w2 & v & v' & -> & -> & _)]; [tauto|].
  split; intros H; exfalso; unfold blank in H; rewrite Forall_forall in H;
    (assert (K : is_ws 61 = true); [apply H|discriminate]); rewrite !in_app_iff; right; right; right; left; reflexivity.
Qed.
Lemma variant_result : forall x y n, line_variant x y ->
  match parse_sdp_line x n, parse_sdp_line y n with
  | Ok a, Ok b => same_line a b
  | Err a, Err b => erase_detail a = erase_detail b
  | Panic, Panic => True
  | _, _ => False
  end.
Proof.
  intros x y n V. pose proof (line_case x y n V) as K.
  destruct (parse_sdp_line x n), (parse_sdp_line y n); cbn [erase_detail_line] in K; try discriminate; auto.
  - injection K as K1 K2. split; [exact K1|left; exact K2].
  - injection K as K. exact K.
Qed.
Lemma scan_variant : forall l1 l2, Forall2 line_variant l1 l2 -> forall n L H W, Scan n l1 L H W ->
  exists L' H' W', Scan n l2 L' H' W' /\ Forall2 same_line L L' /\ map erase_detail H = map erase_detail H' /\
    map erase_detail W = map erase_detail W'.
Proof.
  intros l1 l2 F. induction F as [|x y l1 l2 P F IH]; intros n L H W S.
  - inv S. exists [], [], []. repeat split; constructor.
  - pose proof (variant_blank _ _ P) as PB. pose proof (variant_result _ _ n P) as PR.
    inv S; match goal with K : Scan _ l1 _ _ _ |- _ => destruct (IH _ _ _ _ K) as [L' [H' [W' [S' [Q1 [Q2 Q3]]]]]] end.
    + exists L', H', W'. split; [apply Scan_blank; tauto|auto].
    + match goal with K : parse_sdp_line x n = Ok _ |- _ => rewrite K in PR end.
      destruct (parse_sdp_line y n) as [l'|e'|] eqn:PY; try contradiction.
      exists (l' :: L'), H', W'. split; [apply Scan_ok; tauto|]. split; [constructor; auto|auto].
    + match goal with K : parse_sdp_line x n = Err _ |- _ => rewrite K in PR end.
      destruct (parse_sdp_line y n) as [l'|e'|] eqn:PY; try contradiction.
      destruct (line_err _ _ _ PY) as [[z ->]|[z ->]]; [|discriminate].
      exists L', H', (PUnsupported z y n :: W'). split; [apply Scan_warn; tauto|]. split; auto. split; auto.
      cbn [map]. congruence.
    + match goal with K : parse_sdp_line x n = Err _ |- _ => rewrite K in PR end.
      destruct (parse_sdp_line y n) as [l'|e'|] eqn:PY; try contradiction.
      destruct (line_err _ _ _ PY) as [[z ->]|[z ->]]; [discriminate|].
      exists L', (PLine z y n :: H'), W'. split; [apply Scan_hard; tauto|]. split; auto. split; auto.
      cbn [map]. congruence.
Qed.
Lemma variant_sym : forall x y, line_variant x y -> forall n,
  (parse_sdp_line x n = Panic <-> parse_sdp_line y n = Panic).
Proof.
  intros x y V n. pose proof (variant_result x y n V) as K.
  destruct (parse_sdp_line x n), (parse_sdp_line y n); try contradiction; split; intro; congruence.
Qed.
Lemma case_document : forall sdp1 sdp2 b, 51 <= byte_len sdp1 -> 51 <= byte_len sdp2 ->
  Forall2 line_variant (lines sdp1) (lines sdp2) ->
  erase_detail_result (parse_sdp sdp1 b) = erase_detail_result (parse_sdp sdp2 b).
Proof.
  intros sdp1 sdp2 b B1 B2 F.
  assert (LE : forall H, last_error (map erase_detail H) = option_map erase_detail (last_error H)).
  { intros H. unfold last_error. rewrite <- map_rev. destruct (rev H); auto. }
  destruct (parse_cases sdp1 B1) as [[L [H [W S]]]|P].
  - destruct (scan_variant _ _ F _ _ _ _ S) as [L' [H' [W' [S' [Q1 [Q2 Q3]]]]]].
    rewrite (parse_scan _ _ _ _ _ B1 S), (parse_scan _ _ _ _ _ B2 S'). unfold finish.
    rewrite (vector_same _ _ Q1).
    pose proof (LE H) as E1. pose proof (LE H') as E2. rewrite Q2 in E1. rewrite E1 in E2. clear E1.
    assert (X : erase_detail_result match last_error H with
        | Some e => Err e | None => s <- parse_sdp_vector L' ;; Ok (session_with_warnings W s) end =
      erase_detail_result match last_error H' with
        | Some e => Err e | None => s <- parse_sdp_vector L' ;; Ok (session_with_warnings W' s) end).
    { destruct (last_error H), (last_error H'); try discriminate.
      - cbn. cbn in E2. congruence.
      - destruct (parse_sdp_vector L') as [s|e|]; cbn; auto. unfold with_warnings, session_with_warnings. cbn. rewrite Q3. auto. }
    destruct b; auto. destruct W, W'; try discriminate; auto. cbn in Q3. inv Q3. cbn. congruence.
  - destruct (parse_cases sdp2 B2) as [[L [H [W S]]]|P2]; [|rewrite P, P2; auto].
    exfalso.
    assert (X : forall l1 l2, Forall2 line_variant l1 l2 -> forall n L H W, Scan n l2 L H W -> exists L' H' W', Scan n l1 L' H' W').
    { clear. intros l1 l2 F. induction F as [|x y l1 l2 P F IH]; intros n L H W S; [exists [], [], []; constructor|].
      pose proof (variant_blank _ _ P) as PB. pose proof (variant_sym _ _ P n) as PR.
      destruct (blank_dec x) as [BX|BX].
      - inv S; try tauto. match goal with K : Scan _ l2 _ _ _ |- _ => destruct (IH _ _ _ _ K) as [L' [H' [W' S']]] end. exists L', H', W'. apply Scan_blank; auto.
      - assert (S0 : exists L H W, Scan (Datatypes.S n) l2 L H W) by (inv S; eauto).
        destruct S0 as [L0 [H0 [W0 S0]]]. destruct (IH _ _ _ _ S0) as [L' [H' [W' S']]].
        destruct (parse_sdp_line x n) as [l|e|] eqn:PX.
        + exists (l :: L'), H', W'. apply Scan_ok; auto.
        + destruct (line_err _ _ _ PX) as [[z ->]|[z ->]].
          * exists L', H', (PUnsupported z x n :: W'). apply Scan_warn; auto.
          * exists L', (PLine z x n :: H'), W'. apply Scan_hard; auto.
        + exfalso. assert (PY : parse_sdp_line y n = Panic) by (apply PR; reflexivity).
          inv S; try tauto; congruence. }
    destruct (X _ _ F _ _ _ _ S) as [L' [H' [W' S']]]. specialize (P false).
    rewrite (parse_scan _ _ _ _ _ B1 S') in P. unfold finish in P. destruct (last_error H'); [discriminate|].
    destruct (parse_sdp_vector L') eqn:V; try discriminate. apply vector_np in V. contradiction.
Qed.
Lemma case_strict : forall sdp1 sdp2 s, 51 <= byte_len sdp2 ->
  Forall2 line_variant (lines sdp1) (lines sdp2) ->
  parse_sdp sdp1 true = Ok s -> parse_sdp sdp2 true = Ok s.
Proof.
  intros sdp1 sdp2 s B2 F P.
  assert (B1 : 51 <= byte_len sdp1) by (apply document in P; tauto).
  pose proof (case_document sdp1 sdp2 true B1 B2 F) as D. rewrite P in D.
  assert (W0 : forall x y, parse_sdp x true = Ok y -> s_warnings y = []).
  { intros x y Q. apply document in Q. destruct Q as [_ [ts [ws [_ [W [K _]]]]]]. rewrite W. auto. }
  destruct (parse_sdp sdp2 true) as [s2|e|] eqn:Q; cbn [erase_detail_result] in D; try discriminate.
  pose proof (W0 _ _ P) as K1. pose proof (W0 _ _ Q) as K2. rewrite K1, K2 in D. cbn [map] in D.
  destruct s, s2. cbn in K1, K2. subst. unfold with_warnings in D. cbn in D. congruence.
Qed.
End WithExt.

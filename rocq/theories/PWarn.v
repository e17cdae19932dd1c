(** * What warnings say (proofs for C67) *)
From Coq Require Import List NArith ZArith Bool Ascii String Lia.
From Coq Require Import ZifyBool ZifyNat ZifyN.
From Verif Require Import Str Num Net Types Ext Show Address AttrParse Media Session.
From Verif Require Import StrLemmas NumLemmas NetLemmas.
From Verif Require Import SpecApi SpecDoc SpecVal SpecUnsup SpecWarn PPanic PDoc PDoc2 PDoc3 PDoc4.
From Verif Require Import PVal PVal2 PVal3 PVal4 PVal5 PVal6 PVal7 PVal8 PVal9 PUnsup.
Import ListNotations.
Open Scope N_scope.
Open Scope list_scope.

(** ** Quoting *)
Definition hex_ok (d : N) : bool :=
  match nth_error (of_string "0123456789abcdef") (N.to_nat d) with
  | Some c => c =? hex_digit_char d | None => false end.
Lemma hex_digits : forallb (fun d => hex_ok (N.of_nat d)) (seq 0 16) = true.
Proof. vm_compute. reflexivity. Qed.
Lemma hexadecimal_iff : forall d c, d < 16 -> (hexadecimal d c <-> c = hex_digit_char d).
Proof.
  intros d c L. unfold hexadecimal. pose proof hex_digits as H. rewrite forallb_forall in H.
  specialize (H (N.to_nat d)). rewrite in_seq, N2Nat.id in H. specialize (H ltac:(lia)).
  unfold hex_ok in H. destruct (nth_error _ _) as [k|]; [|discriminate]. apply N.eqb_eq in H. subst k.
  split; congruence.
Qed.
Lemma escaped_iff : forall c e, c < 128 -> (escaped c e <-> e = debug_char c).
Proof.
  intros c e L. split.
  - intro H. destruct H as [| | | | | |c h L1 N H|c a b h k L1 L2 -> L3 H K|c R N1 N2]; try reflexivity.
    + apply hexadecimal_iff in H; [|lia]. subst h. unfold debug_char. cbn [In] in N.
      destruct (N.eqb_spec c 0); [exfalso; apply N; auto|]. destruct (N.eqb_spec c 9); [exfalso; apply N; auto|].
      destruct (N.eqb_spec c 10); [exfalso; apply N; auto|]. destruct (N.eqb_spec c 13); [exfalso; apply N; auto|].
      replace ((c =? 34) || (c =? 92)) with false by lia.
      replace ((c <? 32) || ((127 <=? c) && (c <=? 159))) with true by lia.
      replace (c <? 16) with true by lia. rewrite N.mod_small by lia. reflexivity.
    + apply hexadecimal_iff in H; [|lia]. apply hexadecimal_iff in K; [|lia]. subst h k. unfold debug_char.
      replace (a * 16 + b =? 0) with false by lia. replace (a * 16 + b =? 9) with false by lia.
      replace (a * 16 + b =? 10) with false by lia. replace (a * 16 + b =? 13) with false by lia.
      replace ((a * 16 + b =? 34) || (a * 16 + b =? 92)) with false by lia.
      replace ((a * 16 + b <? 32) || ((127 <=? a * 16 + b) && (a * 16 + b <=? 159))) with true by lia.
      replace (a * 16 + b <? 16) with false by lia.
      replace ((a * 16 + b) / 16) with a by (apply (N.div_unique _ _ _ b); lia).
      replace ((a * 16 + b) mod 16) with b by (apply (N.mod_unique _ _ a); lia). reflexivity.
    + unfold debug_char. replace (c =? 0) with false by lia. replace (c =? 9) with false by lia.
      replace (c =? 10) with false by lia. replace (c =? 13) with false by lia.
      replace ((c =? 34) || (c =? 92)) with false by lia.
      replace ((c <? 32) || ((127 <=? c) && (c <=? 159))) with false by lia. reflexivity.
  - intros ->. unfold debug_char.
    destruct (N.eqb_spec c 0) as [->|]; [apply escaped_nul|].
    destruct (N.eqb_spec c 9) as [->|]; [apply escaped_tab|].
    destruct (N.eqb_spec c 10) as [->|]; [apply escaped_feed|].
    destruct (N.eqb_spec c 13) as [->|]; [apply escaped_return|].
    destruct (N.eqb_spec c 34) as [->|]; [apply escaped_quote|].
    destruct (N.eqb_spec c 92) as [->|]; [apply escaped_backslash|]. cbn [orb].
    destruct ((c <? 32) || ((127 <=? c) && (c <=? 159))) eqn:K; [|apply escaped_not; lia].
    destruct (N.ltb_spec c 16) as [S|S].
    + rewrite N.mod_small by lia. cbn [app]. apply escaped_one; [lia| |apply hexadecimal_iff; [lia|reflexivity]].
      cbn [In]. lia.
    + pose proof (N.div_mod' c 16) as D. pose proof (N.mod_lt c 16 ltac:(lia)) as D2.
      assert (D3 : c / 16 < 16) by (apply N.div_lt_upper_bound; lia).
      apply (escaped_two c (c / 16) (c mod 16)); try lia; apply hexadecimal_iff; try lia; reflexivity.
Qed.
Lemma escaped_ascii : forall c e, escaped c e -> c < 128.
Proof. intros c e H. destruct H; lia. Qed.
Lemma escapes_iff : forall s r, ascii_text s -> (escapes s r <-> r = flat_map debug_char s).
Proof.
  intros s r F. split.
  - intro H. induction H as [|c s e r H1 H2 IH]; [reflexivity|]. inversion F; subst.
    apply escaped_iff in H1; [|assumption]. subst e. cbn [flat_map]. rewrite IH by assumption. reflexivity.
  - intros ->. induction F as [|c s L F IH]; [constructor|]. cbn [flat_map]. constructor; [|exact IH].
    apply escaped_iff; [exact L | reflexivity].
Qed.
Lemma quoted_iff : forall s q, ascii_text s -> (quoted s q <-> q = debug_str s).
Proof.
  intros s q F. unfold quoted, debug_str. split.
  - intros (r & H & ->). apply escapes_iff in H; [|exact F]. subst r. reflexivity.
  - intros ->. exists (flat_map debug_char s). split; [apply escapes_iff; [exact F | reflexivity] | reflexivity].
Qed.
Lemma quoted_ascii : forall s q, quoted s q -> ascii_text s.
Proof.
  intros s q (r & H & _). induction H as [|c s e r H1 H2 IH]; [constructor|].
  constructor; [exact (escaped_ascii _ _ H1) | exact IH].
Qed.

(** ** Capitals and small letters *)
Lemma capitals_iff : forall s u, ascii_text s -> (in_capitals s u <-> u = to_upper s).
Proof.
  intros s u F. split.
  - intro H. induction H as [|a b s u H1 H2 IH]; [reflexivity|]. inversion F; subst.
    change (to_upper (a :: s)) with (upper_char a ++ to_upper s). rewrite <- IH by assumption.
    destruct H1 as [[R H1]|[R ->]].
    + unfold upper_char. replace ((97 <=? a) && (a <=? 122)) with true by lia. cbn [app]. f_equal. lia.
    + rewrite upper_char_ascii by lia. reflexivity.
  - intros ->. induction F as [|a s L F IH]; [constructor|].
    change (to_upper (a :: s)) with (upper_char a ++ to_upper s).
    destruct ((97 <=? a) && (a <=? 122)) eqn:K.
    + unfold upper_char. rewrite K. constructor; [left; lia | exact IH].
    + rewrite upper_char_ascii by lia. constructor; [right; lia | exact IH].
Qed.
Lemma small_iff : forall s u, ascii_text s -> (in_small s u <-> u = to_lower s).
Proof.
  assert (Q : forall a, a < 128 -> ~ (65 <= a <= 90) -> lower_char a = [a]).
  { intros a L N. unfold lower_char. replace ((65 <=? a) && (a <=? 90)) with false by lia.
    replace (a =? 8490) with false by lia. reflexivity. }
  intros s u F. split.
  - intro H. induction H as [|a b s u H1 H2 IH]; [reflexivity|]. inversion F; subst.
    change (to_lower (a :: s)) with (lower_char a ++ to_lower s). rewrite <- IH by assumption.
    destruct H1 as [[R H1]|[R ->]].
    + unfold lower_char. replace ((65 <=? a) && (a <=? 90)) with true by lia. cbn [app]. f_equal. lia.
    + rewrite Q by lia. reflexivity.
  - intros ->. induction F as [|a s L F IH]; [constructor|].
    change (to_lower (a :: s)) with (lower_char a ++ to_lower s).
    destruct ((65 <=? a) && (a <=? 90)) eqn:K.
    + unfold lower_char. rewrite K. constructor; [left; lia | exact IH].
    + rewrite Q by lia. constructor; [right; lia | exact IH].
Qed.
Lemma capitals_ascii : forall s u, in_capitals s u -> ascii_text u -> ascii_text s.
Proof.
  intros s u H. induction H as [|a b s u H1 H2 IH]; intro F; [constructor|].
  inversion F; subst. constructor; [unfold capital in H1; lia | apply IH; assumption].
Qed.
Lemma ascii_upper_text : forall s, ascii_text s -> ascii_text (to_upper s).
Proof.
  intros s F. assert (H : in_capitals s (to_upper s)) by (apply capitals_iff; [exact F | reflexivity]).
  induction H as [|a b s' u H1 H2 IH]; [constructor|]. inversion F; subst.
  constructor; [unfold capital in H1; lia | apply IH; assumption].
Qed.

(** ** Parts of ASCII text *)
Lemma ascii_app : forall a b, ascii_text (a ++ b) <-> ascii_text a /\ ascii_text b.
Proof. intros. apply Forall_app. Qed.
Lemma ascii_words : forall v l, words v l -> ascii_text v -> Forall ascii_text l.
Proof.
  intros v l H. induction H as [w B|w t B W|w t c s l B W C H IH]; intro F.
  - constructor.
  - apply ascii_app in F. constructor; [tauto | constructor].
  - apply ascii_app in F. destruct F as [_ F]. apply ascii_app in F. destruct F as [F1 F2].
    inversion F2; subst. constructor; auto.
Qed.
Lemma ascii_core : forall v t, core v t -> ascii_text v -> ascii_text t.
Proof.
  intros v t (w1 & w2 & -> & _) F. apply ascii_app in F. destruct F as [_ F]. apply ascii_app in F. tauto.
Qed.
Lemma ascii_cut : forall c s a b, cut c s a b -> ascii_text s -> ascii_text a /\ ascii_text b.
Proof.
  intros c s a b [-> _] F. apply ascii_app in F. destruct F as [F1 F2]. inversion F2; subst. auto.
Qed.
Lemma ascii_parts : forall n s l, space_parts n s l -> ascii_text s -> Forall ascii_text l.
Proof.
  induction n as [|n IH]; intros s l H F; cbn [space_parts] in H; [contradiction|].
  destruct n as [|n].
  - subst l. constructor; [exact F | constructor].
  - destruct H as [[_ ->]|(a & b & r & C & -> & H)]; [constructor; [exact F | constructor]|].
    apply ascii_cut in C; [|exact F]. constructor; [tauto|]. eapply IH; [exact H | tauto].
Qed.

Section WithExt.
Context {E : Ext}.

(** ** Lines that warn have the message *)
Definition says {A} (r : res ierr A) (m : str) : Prop := r = Err (EUnsupported m).
Lemma says_fun : forall {A} (r : res ierr A) m, usup r -> (forall m', says r m' -> m' = m) -> says r m.
Proof. intros A r m (m' & H) Q. rewrite <- (Q m' H). exact H. Qed.

Lemma bind_says : forall {A B} (x : res ierr A) (f : A -> res ierr B) m, says (bind x f) m ->
  says x m \/ exists a, x = Ok a /\ says (f a) m.
Proof.
  intros A B x f m H. unfold says in *. destruct x as [a|e|]; cbn [bind] in H.
  - right. eauto.
  - left. injection H as ->; reflexivity.
  - discriminate.
Qed.
Lemma bind_says_err : forall {A B} (x : res ierr A) (f : A -> res ierr B) m, says x m -> says (bind x f) m.
Proof. intros A B x f m H. unfold says in *. rewrite H. reflexivity. Qed.
Ltac nu_step :=
  match goal with
  | |- usup ?x -> False => change (~ usup x)
  | |- ~ usup (Ok _) => apply ok_nu
  | |- ~ usup Panic => apply panic_nu
  | |- ~ usup (Err (EGeneric _)) => apply gen_nu
  | |- ~ usup (Err _) => let m := fresh in let H := fresh in intros (m & H); discriminate H
  | |- ~ usup (p_u8 _) => apply map_err_nu; discriminate
  | |- ~ usup (p_u16 _) => apply map_err_nu; discriminate
  | |- ~ usup (p_u32 _) => apply map_err_nu; discriminate
  | |- ~ usup (p_u64 _) => apply map_err_nu; discriminate
  | |- ~ usup (p_f32 _) => apply map_err_nu; discriminate
  | |- ~ usup (p_f64 _) => apply map_err_nu; discriminate
  | |- ~ usup (res_map_err _ _) => apply map_err_nu; discriminate
  | |- ~ usup (bind _ _) => apply bind_nu; [|intros ? _]
  | |- ~ usup (ok_or _ _) => unfold ok_or
  | |- ~ usup (mapM _ _) => apply mapM_nu; intros ? _
  | |- ~ usup (foldM _ _ _) => apply foldM_nu; intros ? ? _
  | |- ~ usup (up_to _ _ _) => unfold up_to
  | |- ~ usup (idx _ _) => apply idx_nu
  | |- ~ usup (let _ := _ in _) => cbv zeta
  | |- ~ usup (match ?x with _ => _ end) => destruct x
  end.
Ltac nu := repeat nu_step.
Ltac nu2_step :=
  match goal with
  | |- ~ usup (string_or_empty _) => apply string_or_empty_nu
  | |- ~ usup (parse_payload_type _) => apply parse_payload_type_nu
  | |- ~ usup (parse_single_direction _) => apply parse_single_direction_nu
  | |- ~ usup (address_from_str _) => apply address_nu
  | |- ~ usup (parse_unicast_address _) => apply address_nu
  | |- ~ usup (typed_address_try_from _ _) => apply typed_address_nu
  | |- ~ usup (parse_network_type _) => apply parse_network_type_nu
  | |- ~ usup (addr_type_from_str _) => apply addr_type_nu
  | |- ~ usup (parse_address_type _) => apply parse_address_type_nu
  | _ => nu_step
  end.
Ltac nu2 := repeat nu2_step.
Ltac sb H x Hx :=
  apply bind_says in H; destruct H as [H|(x & Hx & H)];
  [exfalso; assert (U : usup _) by (eexists; exact H); revert U; repeat (nu2_step || apply candidate_extension_nu)|].

Lemma q_err : forall A t m, Err (EUnsupported t) = @Err ierr A (EUnsupported m) -> m = t.
Proof. congruence. Qed.
Lemma fmt_ack : forall x, fmt "Unknown rtcpfb ack parameter: {}" [x] = lit "Unknown rtcpfb ack parameter: " ++ x.
Proof. intro x. transitivity (lit "Unknown rtcpfb ack parameter: " ++ x ++ []); [reflexivity | rewrite app_nil_r; reflexivity]. Qed.
Lemma fmt_ccm : forall x, fmt "Unknown rtcpfb ccm parameter: {}" [x] = lit "Unknown rtcpfb ccm parameter: " ++ x.
Proof. intro x. transitivity (lit "Unknown rtcpfb ccm parameter: " ++ x ++ []); [reflexivity | rewrite app_nil_r; reflexivity]. Qed.
Lemma fmt_nack : forall x, fmt "Unknown rtcpfb nack parameter: {}" [x] = lit "Unknown rtcpfb nack parameter: " ++ x.
Proof. intro x. transitivity (lit "Unknown rtcpfb nack parameter: " ++ x ++ []); [reflexivity | rewrite app_nil_r; reflexivity]. Qed.
Lemma fmt_type : forall x, fmt "Unknown rtcpfb feedback type: {}" [x] = lit "Unknown rtcpfb feedback type: " ++ x.
Proof. intro x. transitivity (lit "Unknown rtcpfb feedback type: " ++ x ++ []); [reflexivity | rewrite app_nil_r; reflexivity]. Qed.
Lemma fmt_media : forall x, fmt "unsupported media value: {}" [x] = lit "unsupported media value: " ++ x.
Proof. intro x. transitivity (lit "unsupported media value: " ++ x ++ []); [reflexivity | rewrite app_nil_r; reflexivity]. Qed.
Lemma fmt_protocol : forall x, fmt "unsupported protocol value: {}" [x] = lit "unsupported protocol value: " ++ x.
Proof. intro x. transitivity (lit "unsupported protocol value: " ++ x ++ []); [reflexivity | rewrite app_nil_r; reflexivity]. Qed.
Lemma fmt_attribute : forall x, fmt "Unknown attribute type {}" [x] = lit "Unknown attribute type " ++ x.
Proof. intro x. transitivity (lit "Unknown attribute type " ++ x ++ []); [reflexivity | rewrite app_nil_r; reflexivity]. Qed.
Lemma fmt_remb : forall x, fmt "Unknown rtcpfb {} parameter: {}" [lit "goog-remb"; x] = lit "Unknown rtcpfb goog-remb parameter: " ++ x.
Proof. intro x. transitivity (lit "Unknown rtcpfb goog-remb parameter: " ++ x ++ []); [reflexivity | rewrite app_nil_r; reflexivity]. Qed.
Lemma fmt_transport : forall x, fmt "Unknown rtcpfb {} parameter: {}" [lit "transport-cc"; x] = lit "Unknown rtcpfb transport-cc parameter: " ++ x.
Proof. intro x. transitivity (lit "Unknown rtcpfb transport-cc parameter: " ++ x ++ []); [reflexivity | rewrite app_nil_r; reflexivity]. Qed.

Lemma extensions_says : forall toks c m, says (candidate_extensions c toks) m ->
  m = lit "Ice candidate extension name without value".
Proof.
  assert (G : forall k toks c m, (List.length toks <= k)%nat -> says (candidate_extensions c toks) m ->
    m = lit "Ice candidate extension name without value").
  { induction k as [|k IH]; intros toks c m L H.
    - destruct toks; [discriminate | cbn in L; lia].
    - destruct toks as [|a [|b rest]]; [discriminate| |].
      + cbn [candidate_extensions] in H. unfold says in H. injection H as <-; reflexivity.
      + cbn in L. cbn [candidate_extensions] in H. sb H d Hd. apply IH in H; [exact H | lia]. }
  intros toks c m. apply (G (List.length toks)). lia.
Qed.
Lemma candidate_says : forall v m, says (parse_candidate (trim v)) m <-> candidate_warns v m.
Proof.
  assert (M : forall v m, says (parse_candidate (trim v)) m ->
    m = lit "Ice candidate extension name without value").
  { intros v m. unfold parse_candidate. rewrite sws_trim.
    destruct (split_whitespace v) as [|t0 [|t1 [|t2 [|t3 [|t4 [|t5 [|t6 [|t7 more]]]]]]]] eqn:W;
      intro H; try discriminate.
    cbn [List.length Nat.ltb Nat.leb idx nth_error bind skipn] in H.
    sb H comp H1. sb H trans H2. sb H prio H3. sb H addr H4. sb H port H5.
    destruct (65535 <? port) eqn:L; [discriminate|].
    destruct (str_eqb (to_lower t6) (lit "typ")) eqn:H6; [|discriminate]. cbn [negb] in H.
    sb H ct H7. apply bind_says in H. destruct H as [H|(c & _ & H)]; [|discriminate].
    apply extensions_says in H. exact H. }
  intros v m. unfold candidate_warns. rewrite <- candidate_usup. split.
  - intro H. split; [eexists; exact H | exact (M v m H)].
  - intros [U ->]. apply says_fun; [exact U | intros m'; apply M].
Qed.

Lemma fingerprint_says : forall v m, says (parse_fingerprint (trim v)) m <-> fingerprint_warns v m.
Proof.
  intros v m. unfold fingerprint_warns, parse_fingerprint. rewrite sws_trim. split.
  - destruct (split_whitespace v) as [|t0 [|t1 [|t2 more]]] eqn:W; intro H; try discriminate.
    cbn [List.length Nat.eqb negb idx nth_error bind] in H.
    apply bind_says in H. destruct H as [H|(h & Hh & H)].
    + exists t0, t1. rewrite words_sws. split; [exact W|]. split.
      * intros h K. apply hash_iff in K. rewrite K in H. discriminate.
      * unfold says, hash_type_from_name in H. destruct (assoc_str _ _); [discriminate|].
        injection H as <-. reflexivity.
    + exfalso. assert (U : usup _) by (eexists; exact H). revert U. unfold parse_octets, fingerprint_try_from. nu2.
  - intros (t0 & t1 & W & N & ->). apply words_sws in W. rewrite W.
    cbn [List.length Nat.eqb negb idx nth_error bind]. apply bind_says_err.
    destruct (hash_type_from_name t0) as [h|e|] eqn:P.
    + apply hash_iff in P. destruct (N h P).
    + revert P. unfold hash_type_from_name. destruct (assoc_str _ _); intro P; inv P. reflexivity.
    + revert P. unfold hash_type_from_name. destruct (assoc_str _ _); discriminate.
Qed.
Lemma fmtp_says : forall v m, says (parse_fmtp (trim v)) m <-> fmtp_warns v m.
Proof.
  assert (M : forall v m, says (parse_fmtp (trim v)) m ->
    m = lit "Fmtp attributes require a payload type and a parameter block.").
  { intros v m. unfold parse_fmtp.
    destruct (splitn2_cases c_space (trim v)) as [[N W] | (x & y & Ev & N & W)]; rewrite W; intro H.
    - unfold says in H. cbn [List.length Nat.eqb negb] in H. injection H as <-. reflexivity.
    - exfalso. assert (U : usup _) by (eexists; exact H). revert U.
      cbn [List.length Nat.eqb negb idx nth_error bind skipn]. repeat (nu2_step || apply fmtp_block_nu). }
  intros v m. unfold fmtp_warns. rewrite <- fmtp_usup. split.
  - intro H. split; [eexists; exact H | exact (M v m H)].
  - intros [U ->]. apply says_fun; [exact U | intros m'; apply M].
Qed.

Lemma group_says : forall v m, ascii_text v -> (says (parse_group (trim v)) m <-> group_warns v m).
Proof.
  intros v m F. split.
  - intro H. assert (U : usup (parse_group (trim v))) by (eexists; exact H).
    apply group_usup in U. destruct U as (sem & tags & W & N).
    assert (Fs : ascii_text sem) by (apply ascii_words in W; [inversion W; assumption | exact F]).
    exists sem, tags, (to_upper sem), (debug_str (to_upper sem)).
    split; [exact W|]. split; [exact N|]. split; [apply capitals_iff; auto|].
    split; [apply quoted_iff; [apply ascii_upper_text, Fs | reflexivity]|].
    apply words_sws in W. unfold says, parse_group in H. rewrite sws_trim, W in H.
    destruct (assoc_str _ _); inv H. reflexivity.
  - intros (sem & tags & u & q & W & N & C & Q & ->).
    assert (U : usup (parse_group (trim v))) by (apply group_usup; exists sem, tags; auto).
    pose proof (quoted_ascii _ _ Q) as Fu. pose proof (capitals_ascii _ _ C Fu) as Fs.
    apply capitals_iff in C; [|exact Fs]. apply quoted_iff in Q; [|exact Fu]. subst u q.
    apply says_fun; [exact U|]. clear U. intros m' H.
    apply words_sws in W. unfold says, parse_group in H. rewrite sws_trim, W in H.
    destruct (assoc_str _ _); inv H. reflexivity.
Qed.
Lemma ssrc_group_says : forall v m, ascii_text v -> (says (parse_ssrc_group (trim v)) m <-> ssrc_group_warns v m).
Proof.
  assert (M : forall v m sem ids, words v (sem :: ids) -> (forall g, ~ means_upper sem (ssrc_group_name g)) ->
    says (parse_ssrc_group (trim v)) m ->
    m = lit "Unknown ssrc semantic '" ++ debug_str (to_upper sem) ++ lit "' found").
  { intros v m sem ids W N H. apply words_sws in W. unfold says, parse_ssrc_group in H. rewrite sws_trim, W in H.
    destruct (assoc_str _ _) as [g|] eqn:A; [|inv H; reflexivity].
    exfalso. apply (N g). apply means_upper_iff; [destruct g; reflexivity|].
    revert A. apply (table_iff _ ssrc_group_name); [repeat constructor | intros []; reflexivity]. }
  intros v m F. split.
  - intro H. assert (U : usup (parse_ssrc_group (trim v))) by (eexists; exact H).
    apply ssrc_group_usup in U. destruct U as (sem & ids & W & N).
    assert (Fs : ascii_text sem) by (apply ascii_words in W; [inversion W; assumption | exact F]).
    exists sem, ids, (to_upper sem), (debug_str (to_upper sem)).
    split; [exact W|]. split; [exact N|]. split; [apply capitals_iff; auto|].
    split; [apply quoted_iff; [apply ascii_upper_text, Fs | reflexivity]|]. eapply M; eauto.
  - intros (sem & ids & u & q & W & N & C & Q & ->).
    assert (U : usup (parse_ssrc_group (trim v))) by (apply ssrc_group_usup; exists sem, ids; auto).
    pose proof (quoted_ascii _ _ Q) as Fu. pose proof (capitals_ascii _ _ C Fu) as Fs.
    apply capitals_iff in C; [|exact Fs]. apply quoted_iff in Q; [|exact Fu]. subst u q.
    apply says_fun; [exact U|]. intros m' H. eapply M; eauto.
Qed.

Definition fb_says (k : rtcp_fb_type) (ty : str) (more : list str) (m : str) : Prop :=
  (exists p rest q, k <> FbTrrInt /\ more = p :: rest /\ ~ fb_parameter_ok k (Some p) /\ quoted p q /\
     m = lit "Unknown rtcpfb " ++ ty ++ lit " parameter: " ++ q) \/
  (is_word ty "ack" /\ more = [] /\ m = lit "The rtcpfb ack feeback type needs a parameter:").
Lemma fb_parameter_says : forall k ty more m, Forall ascii_text more -> is_word ty (fb_name k) ->
  (says (rtcp_fb_parameter k (hd_error more)) m <-> fb_says k ty more m).
Proof.
  intros k ty more m F W.
  assert (D : forall p rest, more = p :: rest -> k <> FbTrrInt -> forall m',
    says (rtcp_fb_parameter k (hd_error more)) m' ->
    m' = lit "Unknown rtcpfb " ++ ty ++ lit " parameter: " ++ debug_str p).
  { intros p rest -> N m' H. unfold is_word in W. subst ty. unfold says, rtcp_fb_parameter in H.
    cbn [hd_error] in H.
    assert (Q : forall t, Err (EUnsupported t) = @Err ierr str (EUnsupported m') -> m' = t) by (intros; eapply q_err; eassumption).
    destruct k; try congruence; try (destruct (mem_str _ _); [discriminate|]); apply Q in H; subst m'.
    - apply fmt_ack. - apply fmt_ccm. - apply fmt_nack. - apply fmt_remb. - apply fmt_transport. }
  split.
  - intro H. assert (U : usup (rtcp_fb_parameter k (hd_error more))) by (eexists; exact H).
    apply fb_parameter_usup in U. destruct U as [N B]. destruct more as [|p rest].
    + right. destruct k; try (exfalso; apply B; exact I); [|congruence].
      split; [exact W|]. split; [reflexivity|]. apply q_err in H. exact H.
    + left. exists p, rest, (debug_str p). split; [exact N|]. split; [reflexivity|]. split; [exact B|].
      split; [apply quoted_iff; [inversion F; assumption | reflexivity]|]. eapply D; eauto.
  - intros [(p & rest & q & N & -> & B & Q & ->)|(A & -> & ->)].
    + apply says_fun; [apply fb_parameter_usup; split; assumption|]. intros m' H.
      apply quoted_iff in Q; [|inversion F; assumption]. subst q. eapply D; eauto.
    + unfold is_word in *. rewrite A in W. destruct k; try discriminate W. reflexivity.
Qed.
Lemma rtcp_fb_says : forall v m, ascii_text v -> (says (parse_rtcp_fb (trim v)) m <-> rtcp_fb_warns v m).
Proof.
  intros v m F. unfold rtcp_fb_warns. split.
  - intro H. assert (U : usup (parse_rtcp_fb (trim v))) by (eexists; exact H).
    apply rtcp_fb_usup in U. destruct U as (t & pt & ty & more & C & P & U).
    exists t, pt, ty, more. split; [exact C|]. split; [exact P|].
    pose proof (ascii_parts _ _ _ P (ascii_core _ _ C F)) as Fp. inversion Fp as [|? ? _ Fp']; subst.
    inversion Fp' as [|? ? Fy Fm]; subst. clear Fp Fp'.
    apply core_trim in C. subst t. apply parts_splitn in P. destruct P as [_ P].
    change (splitn 4 c_space (trim v) = pt :: ty :: more) in P. unfold parse_rtcp_fb in H.
    rewrite P in H. cbn [nth_error] in H.
    replace (nth_error more 0) with (hd_error more) in H by (destruct more; reflexivity).
    destruct U as [U|(k & Hk & N & B)].
    + left. split; [exact U|]. exists (debug_str ty). split; [apply quoted_iff; auto|].
      apply bind_says in H. destruct H as [H|(k & Hk & H)].
      * unfold says in H. destruct (assoc_str _ _); [discriminate|]. apply q_err in H. subst m. apply fmt_type.
      * destruct (assoc_str _ _) as [k'|] eqn:A; inv Hk. apply fb_type_iff in A. destruct (U k A).
    + right. pose proof Hk as Hk'. apply fb_type_iff in Hk'. rewrite Hk' in H. cbn [bind] in H.
      apply bind_says in H. destruct H as [H|(p & Hp & H)].
      * apply (fb_parameter_says k ty) in H; [|exact Fm | exact Hk].
        destruct H as [(p & rest & q & H1 & H2 & H3 & H4 & H5)|H]; [left; exists k, p, rest, q; auto 6 | right; exact H].
      * exfalso. assert (V : usup _) by (eexists; exact H). revert V. nu2.
  - intros (t & pt & ty & more & C & P & H).
    pose proof (ascii_parts _ _ _ P (ascii_core _ _ C F)) as Fp. inversion Fp as [|? ? _ Fp']; subst.
    inversion Fp' as [|? ? Fy Fm]; subst. clear Fp Fp'.
    apply core_trim in C. subst t. apply parts_splitn in P. destruct P as [_ P].
    change (splitn 4 c_space (trim v) = pt :: ty :: more) in P. unfold parse_rtcp_fb.
    rewrite P. cbn [nth_error].
    replace (nth_error more 0) with (hd_error more) by (destruct more; reflexivity).
    destruct H as [[N (q & Q & ->)]|H].
    + apply bind_says_err.
      match goal with |- says (match ?x with _ => _ end) _ => destruct x as [k|] eqn:A end.
      { apply fb_type_iff in A. destruct (N k A). }
      apply quoted_iff in Q; [|exact Fy]. subst q. rewrite <- fmt_type. reflexivity.
    + assert (K : exists k, is_word ty (fb_name k) /\ fb_says k ty more m).
      { destruct H as [(k & p & rest & q & H1 & H2 & H3 & H4 & H5 & H6)|H].
        - exists k. split; [exact H1|]. left. exists p, rest, q. auto 6.
        - exists FbAck. split; [exact (proj1 H) | right; exact H]. }
      destruct K as (k & Hk & K). apply fb_parameter_says in K; [|exact Fm | exact Hk].
      apply fb_type_iff in Hk. rewrite Hk. cbn [bind]. apply bind_says_err. exact K.
Qed.

Lemma media_says : forall v m, says (parse_media (trim v)) m <-> media_warns v m.
Proof.
  intros v m.
  assert (A : forall kind port proto fmts, words v (kind :: port :: proto :: fmts) -> fmts <> [] ->
    (forall k, ~ means kind (media_name k)) -> forall m', says (parse_media (trim v)) m' ->
    m' = lit "unsupported media value: " ++ kind).
  { intros kind port proto fmts W Hne N m' H. apply words_sws in W. unfold parse_media in H.
    rewrite sws_trim, W in H. destruct fmts as [|f fmts]; [congruence|].
    cbn [List.length Nat.ltb Nat.leb idx nth_error bind skipn] in H.
    destruct (parse_media_token kind) as [k|e|] eqn:P.
    - apply media_token_iff in P. destruct (N k P).
    - cbn [bind] in H. revert P. unfold parse_media_token. destruct (assoc_str _ _); [discriminate|]. intro P.
      assert (e = EUnsupported (fmt "unsupported media value: {}" [kind])) by congruence. subst e.
      apply q_err in H. subst m'. apply fmt_media.
    - discriminate. }
  assert (B : forall kind port proto fmts, words v (kind :: port :: proto :: fmts) -> fmts <> [] ->
    (exists k, means kind (media_name k)) ->
     (exists p more n, fields 47 port (p :: more) /\ numeral 65535 p n /\
        match more with [] => True | c :: _ => exists k, numeral u32_max c k end) ->
    (forall p, ~ means_upper proto (protocol_name p)) -> forall m', says (parse_media (trim v)) m' ->
    m' = lit "unsupported protocol value: " ++ proto).
  { intros kind port proto fmts W Hne (k & Hk) (p & rest & n & F & Hp & Hc) N m' H.
    apply words_sws in W. unfold parse_media in H.
    rewrite sws_trim, W in H. destruct fmts as [|f fmts]; [congruence|].
    cbn [List.length Nat.ltb Nat.leb idx nth_error bind skipn] in H.
    apply media_token_iff in Hk. rewrite Hk in H. cbn [bind] in H.
    apply fields_split in F. change (split c_slash port = p :: rest) in F. rewrite F in H.
    apply port_iff in Hp. destruct Hp as [Hp L]. rewrite Hp in H. cbn [bind] in H. rewrite L in H.
    assert (Hpc : exists k, match p :: rest with | _ :: c :: _ => p_u32 c | _ => Ok 0 end = Ok k).
    { destruct rest; [eauto|]. destruct Hc as (j & Hc). exists j. apply p_u32_iff; exact Hc. }
    destruct Hpc as (j & Hpc). rewrite Hpc in H. cbn [bind] in H.
    destruct (parse_protocol_token proto) as [q|e|] eqn:P.
    - apply protocol_iff in P. destruct (N q P).
    - cbn [bind] in H. revert P. unfold parse_protocol_token. destruct (assoc_str _ _); [discriminate|]. intro P.
      assert (e = EUnsupported (fmt "unsupported protocol value: {}" [proto])) by congruence. subst e.
      apply q_err in H. subst m'. apply fmt_protocol.
    - discriminate. }
  unfold media_warns. split.
  - intro H. assert (U : usup (parse_media (trim v))) by (eexists; exact H). apply media_usup in U.
    destruct U as (kind & port & proto & fmts & W & Hne & U). exists kind, port, proto, fmts.
    split; [exact W|]. split; [exact Hne|]. destruct U as [U|(U1 & U2 & U3)].
    + left. split; [exact U|]. eapply A; eauto.
    + right. split; [exact U1|]. split; [exact U2|]. split; [exact U3|]. eapply B; eauto.
  - intros (kind & port & proto & fmts & W & Hne & U).
    assert (V : usup (parse_media (trim v))).
    { apply media_usup. exists kind, port, proto, fmts. split; [exact W|]. split; [exact Hne|]. tauto. }
    destruct U as [[U ->]|(U1 & U2 & U3 & ->)]; (apply says_fun; [exact V|]); intros m' H.
    + eapply A; eauto.
    + eapply B; eauto.
Qed.

(** ** Attributes *)
Definition value_says_as (n rest m : str) : Prop :=
  (n = lit "candidate" /\ candidate_warns rest m) \/
  (n = lit "fingerprint" /\ fingerprint_warns rest m) \/
  (n = lit "fmtp" /\ fmtp_warns rest m) \/
  (n = lit "group" /\ group_warns rest m) \/
  (n = lit "rtcp-fb" /\ rtcp_fb_warns rest m) \/
  (n = lit "ssrc-group" /\ ssrc_group_warns rest m).
Lemma says_as_iff : forall name rest m, value_says_as (to_lower name) rest m <->
    ((means name "candidate" /\ candidate_warns rest m) \/
     (means name "fingerprint" /\ fingerprint_warns rest m) \/
     (means name "fmtp" /\ fmtp_warns rest m) \/
     (means name "group" /\ group_warns rest m) \/
     (means name "rtcp-fb" /\ rtcp_fb_warns rest m) \/
     (means name "ssrc-group" /\ ssrc_group_warns rest m)).
Proof.
  intros name rest m. unfold value_says_as.
  rewrite !means_iff by reflexivity. reflexivity.
Qed.
Lemma row_says : forall n p rest m, assoc_str n attr_parsers = Some p -> ascii_text rest ->
  (says (p (trim rest)) m <-> value_says_as n rest m).
Proof.
  intros n p rest m A F. split.
  - intro H. assert (U : usup (p (trim rest))) by (eexists; exact H).
    pose proof (row_usup _ _ _ (assoc_str_In _ _ _ A) U) as V. unfold value_says_as.
    destruct V as [[-> _]|[[-> _]|[[-> _]|[[-> _]|[[-> _]|[-> _]]]]]];
      cbn in A; injection A as <-.
    + left. split; [reflexivity | apply candidate_says, H].
    + right; left. split; [reflexivity | apply fingerprint_says, H].
    + right; right; left. split; [reflexivity | apply fmtp_says, H].
    + right; right; right; left. split; [reflexivity | apply group_says; assumption].
    + right; right; right; right; left. split; [reflexivity | apply rtcp_fb_says; assumption].
    + right; right; right; right; right. split; [reflexivity | apply ssrc_group_says; assumption].
  - intro V. destruct V as [[-> V]|[[-> V]|[[-> V]|[[-> V]|[[-> V]|[-> V]]]]]]; cbn in A; injection A as <-.
    + apply candidate_says, V.
    + apply fingerprint_says, V.
    + apply fmtp_says, V.
    + apply group_says; assumption.
    + apply rtcp_fb_says; assumption.
    + apply ssrc_group_says; assumption.
Qed.
Lemma says_as_row : forall n rest m, value_says_as n rest m ->
  mem_str n flag_names = false /\ exists p, assoc_str n attr_parsers = Some p.
Proof.
  intros n rest m V. destruct V as [[-> V]|[[-> V]|[[-> V]|[[-> V]|[[-> V]|[-> V]]]]]];
    (split; [reflexivity | eexists; reflexivity]).
Qed.
Lemma attribute_says : forall v m, ascii_text v -> (says (attr_from_str (trim v)) m <-> attribute_warns v m).
Proof.
  intros v m F. unfold attr_from_str, attribute_warns.
  assert (Ft : ascii_text (trim v)) by (exact (ascii_core _ _ (core_trim_self v) F)).
  assert (X : forall name rest val, val = trim rest -> ascii_text name -> ascii_text rest ->
    (says (match assoc_str (to_lower name) attr_parsers with
       | Some p => p val | None => Err (unsupf "Unknown attribute type {}" [to_lower name]) end) m <->
     (~ attribute_named name /\ exists l, in_small name l /\ m = lit "Unknown attribute type " ++ l) \/
     value_says_as (to_lower name) rest m)).
  { intros name rest val -> Fn Fr. destruct (assoc_str (to_lower name) attr_parsers) as [p|] eqn:A.
    - rewrite (row_says _ _ _ _ A Fr). split; [right; assumption|]. intros [[N _]|H]; [|exact H].
      apply assoc_named in N. congruence.
    - split.
      + intro H. left. split; [apply assoc_named, A|]. exists (to_lower name).
        split; [apply small_iff; auto|]. unfold says in H. injection H as <-.
        apply fmt_attribute.
      + intros [[_ (l & S & ->)]|H].
        * apply small_iff in S; [|exact Fn]. subst l. unfold says. do 2 f_equal.
          apply fmt_attribute.
        * apply says_as_row in H. destruct H as (_ & p & K). congruence. }
  split.
  - intro H. exists (trim v).
    destruct (splitn2_cases c_colon (trim v)) as [[N W] | (x & y & Ev & N & W)]; rewrite W in H;
      cbn [idx nth_error bind List.length Nat.ltb Nat.leb] in H; cbn [andb] in H;
      apply contains_not_In in N.
    + exists (trim v), []. split; [apply core_trim_self|]. split; [left; auto|].
      apply (X _ []) in H; [|reflexivity|exact Ft | constructor].
      destruct H as [H|H]; [left; exact H | right; apply says_as_iff, H].
    + rewrite Ev in Ft. apply ascii_app in Ft. destruct Ft as [Fx Fy]. inversion Fy; subst.
      exists x, y. split; [apply core_trim_self|]. split; [right; split; assumption|].
      destruct (mem_str (to_lower x) flag_names); [discriminate|].
      apply (X _ y) in H; [|reflexivity|assumption | assumption].
      destruct H as [H|H]; [left; exact H | right; apply says_as_iff, H].
  - intros (t & name & rest & C & D & H). apply core_trim in C. subst t.
    assert (H' : (~ attribute_named name /\ exists l, in_small name l /\ m = lit "Unknown attribute type " ++ l) \/
     value_says_as (to_lower name) rest m) by (destruct H as [H|H]; [left; exact H | right; apply says_as_iff, H]).
    clear H.
    assert (G : mem_str (to_lower name) flag_names = false).
    { destruct H' as [[H _]|H]; [|apply says_as_row in H; tauto]. apply assoc_named in H.
      destruct (mem_str (to_lower name) flag_names) eqn:M; [|reflexivity]. destruct (flag_known _ M H). }
    destruct D as [(N & -> & ->)|Ct].
    + destruct (splitn2_cases c_colon (trim v)) as [[_ W] | (x & y & Ev & _ & _)].
      2: { exfalso. apply N. rewrite Ev. apply in_or_app. right. now left. }
      rewrite W. cbn [idx nth_error bind List.length Nat.ltb Nat.leb]. cbn [andb].
      apply (X _ []); [reflexivity | exact Ft | constructor | exact H'].
    + pose proof (ascii_cut _ _ _ _ Ct Ft) as [Fn Fr].
      apply cut_splitn2 in Ct. change 58 with c_colon in Ct. rewrite Ct.
      cbn [idx nth_error bind List.length Nat.ltb Nat.leb]. cbn [andb]. rewrite G. apply (X _ rest); [reflexivity | assumption..].
Qed.

(** ** Lines *)
Lemma value_says : forall c v m, ascii_text v -> (says (parse_value [c] (trim v) v) m <->
  (c = 97 /\ attribute_warns v m) \/ (c = 109 /\ media_warns v m)).
Proof.
  intros c v m F.
  assert (A : parse_value [97] (trim v) v = bind (attr_from_str (trim v)) (fun a => Ok (TyAttribute a))).
  { unfold parse_value. change (str_eqb [97] (lit "a")) with true. cbv iota. unfold parse_attribute.
    rewrite trim_idem. reflexivity. }
  assert (M : parse_value [109] (trim v) v = parse_media (trim v)) by reflexivity.
  assert (A' : says (parse_value [97] (trim v) v) m <-> attribute_warns v m).
  { rewrite A, <- attribute_says by exact F. split.
    - intro H. apply bind_says in H. destruct H as [H|(a & _ & H)]; [exact H | discriminate].
    - apply bind_says_err. }
  assert (M' : says (parse_value [109] (trim v) v) m <-> media_warns v m) by (rewrite M; apply media_says).
  split.
  - intro H. assert (U : usup (parse_value [c] (trim v) v)) by (eexists; exact H).
    apply value_usup in U. destruct U as [[-> _]|[-> _]]; [left|right]; (split; [reflexivity|]); tauto.
  - intros [[-> H]|[-> H]]; tauto.
Qed.
Lemma line_says : forall line n m, ascii_text line ->
  (parse_sdp_line line n = Err (PUnsupported (EUnsupported m) line n) <-> line_warns line m).
Proof.
  intros line n m F.
  assert (D : forall w1 c w2 v, line = w1 ++ [c] ++ w2 ++ 61 :: v -> blank w1 -> blank w2 -> ~ blank v ->
    (same_letter c 97 \/ same_letter c 109) -> ascii_text v /\
    parse_sdp_line line n = match parse_value [ascii_lower c] (trim v) v with
      | Ok t => Ok {| l_number := n; l_type := t; l_text := line |}
      | Err e => Err (line_error line n e) | Panic => Panic end).
  { intros w1 c w2 v El B1 B2 Nb T. split.
    { rewrite El in F. apply ascii_app in F. destruct F as [_ F]. apply ascii_app in F. destruct F as [_ F].
      apply ascii_app in F. destruct F as [_ F]. inversion F; assumption. }
    apply blank_forallb in B1, B2.
    assert (Sl : ascii_lower c = 97 \/ ascii_lower c = 109).
    { destruct T as [K|K]; unfold same_letter in K; rewrite K; auto. }
    assert (Lc : c < 128 /\ c <> 61 /\ is_ws c = false).
    { unfold ascii_lower in Sl. destruct ((65 <=? c) && (c <=? 90)) eqn:K.
      - split; [lia|]. split; [lia|]. unfold is_ws. lia.
      - assert (Q : c = 97 \/ c = 109) by exact Sl. split; [lia|]. split; [lia|]. unfold is_ws. lia. }
    destruct Lc as (Lc & Nc & Wc).
    assert (Ct : cut 61 line (w1 ++ [c] ++ w2) v).
    { split; [rewrite El, <- !app_assoc; reflexivity|]. intro I.
      rewrite forallb_forall in B1, B2.
      apply in_app_or in I. destruct I as [I|I]; [apply B1 in I; discriminate|].
      apply in_app_or in I. destruct I as [[I|[]]|I]; [congruence|]. apply B2 in I. discriminate. }
    assert (Tt : trim (w1 ++ [c] ++ w2) = [c]).
    { symmetry. apply core_trim. exists w1, w2. split; [reflexivity|].
      split; [apply blank_forallb; exact B1|]. split; [apply blank_forallb; exact B2|].
      right. split; [exists c, []; auto | exists c, []; auto]. }
    unfold parse_sdp_line.
    pose proof (cut_In _ _ _ _ Ct) as Ie. apply contains_In in Ie. change (contains c_eq line = true) in Ie.
    rewrite Ie. cbn [negb]. apply cut_splitn2 in Ct. change 61 with c_eq in Ct. rewrite Ct. cbv zeta.
    rewrite Tt. assert (Bl : byte_len [c] = 1).
    { unfold byte_len. cbn [fold_right]. unfold utf8_len. destruct (N.ltb_spec c 128); [reflexivity | lia]. }
    rewrite Bl. cbn [N.ltb N.compare Pos.compare Pos.compare_cont is_empty].
    rewrite lower_one by exact Lc.
    destruct (is_empty (trim v)) eqn:Em.
    { exfalso. apply Nb. apply is_empty_true in Em. destruct (trim_decompose v) as (x & y & Ex & Bx & By).
      rewrite Em in Ex. rewrite Ex. cbn [app]. unfold blank. apply Forall_app.
      split; apply blank_forallb; assumption. }
    cbn [andb]. reflexivity. }
  split.
  - intro H. assert (U : line_unsupported line) by (apply (line_unsupported_iff _ n); eexists; exact H).
    destruct U as (w1 & c & w2 & v & El & B1 & B2 & Nb & T).
    destruct (D w1 c w2 v El B1 B2 Nb ltac:(tauto)) as [Fv P]. exists w1, c, w2, v.
    split; [exact El|]. split; [exact B1|]. split; [exact B2|]. split; [exact Nb|].
    rewrite P in H. assert (Q : says (parse_value [ascii_lower c] (trim v) v) m).
    { unfold says. destruct (parse_value _ _ _) as [x|x|]; try discriminate.
      unfold line_error in H. destruct x; try discriminate. injection H as ->. reflexivity. }
    apply value_says in Q; [|exact Fv]. unfold same_letter. tauto.
  - intros (w1 & c & w2 & v & El & B1 & B2 & Nb & T).
    destruct (D w1 c w2 v El B1 B2 Nb ltac:(tauto)) as [Fv P].
    assert (Q : says (parse_value [ascii_lower c] (trim v) v) m).
    { apply value_says; [exact Fv|]. unfold same_letter in T. tauto. }
    rewrite P. unfold says in Q. rewrite Q. reflexivity.
Qed.

(** ** Documents *)
Lemma reads_says : forall ls n ts ws, Reads n ls ts ws -> Forall ascii_text ls ->
  exists us, lines_read n ls ts us /\ Forall2 warning_says ws us.
Proof.
  intros ls n ts ws H F.
  induction H as [n|n line rest ts ws B H IH|n line rest ts ws l B P H IH|n line rest ts ws e B P H IH].
  - exists []. split; constructor.
  - inversion F; subst. destruct IH as (us & R & W); [assumption|]. exists us.
    split; [apply read_blank; assumption | exact W].
  - inversion F; subst. destruct IH as (us & R & W); [assumption|]. exists us.
    apply line_fwd in P. destruct P as (_ & _ & P). split; [apply read_line; assumption | exact W].
  - inversion F; subst. destruct IH as (us & R & W); [assumption|]. exists ((line, n) :: us). split.
    + apply read_unsupported; [assumption | apply (line_unsupported_iff _ n); eauto | exact R].
    + constructor; [|exact W]. pose proof (unsupported_message _ _ _ _ _ P) as (m & ->).
      apply line_says in P; [|assumption]. exists m. auto.
Qed.
Lemma read_says : forall ls n ts ws us, Reads n ls ts ws -> Forall ascii_text ls ->
  Forall2 warning_for ws us -> Forall2 warning_says ws us.
Proof.
  intros ls n ts ws us R F W. destruct (reads_says _ _ _ _ R F) as (us' & _ & W').
  clear R F. revert us W. induction W' as [|w [l k] ws us' (m & E1 & Q) W' IH]; intros us W.
  - inversion W; subst. constructor.
  - inversion W as [|? [l' k'] ? us1 (m' & E2) W1]; subst. cbn [fst snd] in *. inv E2.
    constructor; [exists m'; auto | apply IH, W1].
Qed.
Lemma warnings_say : forall d b s, doc_ok d -> Forall ascii_text (doc_lines d) ->
  parse_sdp (doc_text d) b = Ok s ->
  exists ts us, lines_read 0 (doc_lines d) ts us /\ Forall2 warning_says (s_warnings s) us.
Proof.
  intros d b s D F P. apply document in P. rewrite (lines_doc d D) in P.
  destruct P as (_ & ts & ws & R & <- & _). exists ts. exact (reads_says _ _ _ _ R F).
Qed.
End WithExt.

(** ** Quoting loses nothing *)
Definition prefixb (a b : str) : bool := str_eqb a (firstn (List.length a) b).
Definition chars128 : list N := map N.of_nat (seq 0 128).
Definition clash (c d : N) : bool :=
  negb (c =? d) && (prefixb (debug_char c) (debug_char d) || prefixb (debug_char d) (debug_char c)).
Lemma no_clash : forallb (fun c => forallb (fun d => negb (clash c d)) chars128) chars128 = true.
Proof. vm_compute. reflexivity. Qed.
Lemma in_chars128 : forall c, c < 128 -> In c chars128.
Proof.
  intros c L. unfold chars128. rewrite in_map_iff. exists (N.to_nat c). rewrite N2Nat.id.
  split; [reflexivity|]. apply in_seq. lia.
Qed.
Lemma prefixb_app : forall a b r s, a ++ r = b ++ s -> (List.length a <= List.length b)%nat -> prefixb a b = true.
Proof.
  intros a b r s H L. unfold prefixb. destruct (str_eqb_spec a (firstn (List.length a) b)) as [_|N]; [reflexivity|].
  exfalso. apply N. apply (f_equal (firstn (List.length a))) in H.
  rewrite firstn_app, Nat.sub_diag, firstn_O, app_nil_r, firstn_all in H.
  rewrite firstn_app in H. replace (List.length a - List.length b)%nat with 0%nat in H by lia.
  rewrite firstn_O, app_nil_r in H. exact H.
Qed.
Lemma debug_char_code : forall c d r s, c < 128 -> d < 128 ->
  debug_char c ++ r = debug_char d ++ s -> c = d /\ r = s.
Proof.
  intros c d r s Lc Ld H. pose proof no_clash as K. rewrite forallb_forall in K.
  specialize (K c (in_chars128 c Lc)). rewrite forallb_forall in K. specialize (K d (in_chars128 d Ld)).
  unfold clash in K. assert (Q : c = d).
  { destruct (N.eqb_spec c d) as [e|n]; [exact e|]. exfalso. cbn [negb andb] in K.
    destruct (Nat.le_ge_cases (List.length (debug_char c)) (List.length (debug_char d))) as [L|L].
    - rewrite (prefixb_app _ _ _ _ H L) in K. discriminate.
    - rewrite (prefixb_app _ _ _ _ (eq_sym H) L) in K. rewrite orb_true_r in K. discriminate. }
  subst d. split; [reflexivity|]. exact (app_inv_head _ _ _ H).
Qed.
Lemma debug_char_nonempty : forall c r, debug_char c ++ r <> [].
Proof.
  intros c r. unfold debug_char.
  repeat match goal with |- context [if ?b then _ else _] => destruct b end; discriminate.
Qed.
Lemma escapes_inj : forall s t, ascii_text s -> ascii_text t ->
  flat_map debug_char s = flat_map debug_char t -> s = t.
Proof.
  intros s t F. revert t. induction F as [|c s L F IH]; intros t G H.
  - destruct t as [|d t]; [reflexivity|]. cbn [flat_map] in H. destruct (debug_char_nonempty _ _ (eq_sym H)).
  - destruct t as [|d t]; [cbn [flat_map] in H; destruct (debug_char_nonempty _ _ H)|].
    inversion G; subst. cbn [flat_map] in H. apply debug_char_code in H; [|assumption|assumption].
    destruct H as [-> H]. f_equal. apply IH; assumption.
Qed.
Lemma quoted_inj : forall s t q, quoted s q -> quoted t q -> s = t.
Proof.
  intros s t q H K. pose proof (quoted_ascii _ _ H) as F. pose proof (quoted_ascii _ _ K) as G.
  apply quoted_iff in H; [|exact F]. apply quoted_iff in K; [|exact G]. subst q.
  unfold debug_str in K. injection K as K. apply app_inj_tail in K. destruct K as [K _].
  apply escapes_inj; [exact F | exact G | exact K].
Qed.
Definition visible_char (c : N) : bool := forallb (fun x => (32 <=? x) && (x <? 127)) (debug_char c).
Lemma all_visible : forallb visible_char chars128 = true.
Proof. vm_compute. reflexivity. Qed.
Lemma quoted_visible : forall s q, quoted s q -> Forall (fun c => 32 <= c < 127) q.
Proof.
  intros s q H. pose proof (quoted_ascii _ _ H) as F. apply quoted_iff in H; [|exact F]. subst q.
  unfold debug_str. constructor; [lia|]. apply Forall_app. split; [|constructor; [lia | constructor]].
  apply Forall_flat_map. eapply Forall_impl; [|exact F]. intros c L. cbn beta in L.
  pose proof all_visible as K. rewrite forallb_forall in K. specialize (K c (in_chars128 c L)).
  unfold visible_char in K. rewrite forallb_forall in K. apply Forall_forall. intros x I. apply K in I. lia.
Qed.
Lemma every_quoted : forall s, ascii_text s -> exists q, quoted s q.
Proof. intros s F. exists (debug_str s). apply quoted_iff; [exact F | reflexivity]. Qed.

(** * Blanks between fields (C85) *)
From Coq Require Import List Arith NArith ZArith Lia Bool Ascii String.
From Coq Require Import ZifyBool ZifyNat ZifyN.
From Verif Require Import Str Num Net Types Ext Show Address AttrParse Media Session SpecApi SpecDoc SpecVal SpecBlank.
From Verif Require Import StrLemmas NumLemmas PApi PPanic PDoc PDoc2 PDoc3 PVal PVal9 PVal11 PCase.
Import ListNotations.
Open Scope N_scope.
Open Scope list_scope.

Section WithExt.
Context {E : Ext}.

Lemma same_words : forall v v', reblanked v v' -> split_whitespace (trim v) = split_whitespace (trim v').
Proof. intros v v' (l & H & H'). apply words_sws in H, H'. rewrite !sws_trim. congruence. Qed.
Lemma same_empty : forall v v', reblanked v v' -> is_empty (trim v) = is_empty (trim v').
Proof.
  intros v v' (l & H & H'). apply (trim_nil_words [] v v'). exists l, l. split; [exact H|]. split; [exact H'|].
  clear. induction l as [|x l IH]; cbn; auto.
Qed.

(** ** Values *)
Lemma type_words : forall k v v' raw raw', In k word_types -> split_whitespace v = split_whitespace v' ->
  parse_value k v raw = parse_value k v' raw'.
Proof.
  intros k v v' raw raw' I Q. repeat (destruct I as [<-|I]; [|]); [| | | |destruct I];
    unfold parse_value;
    [change (parse_connection v = parse_connection v')|change (parse_media v = parse_media v')
    |change (parse_origin v = parse_origin v')|change (parse_timing v = parse_timing v')].
  - unfold parse_connection. rewrite Q. reflexivity.
  - unfold parse_media. rewrite Q. reflexivity.
  - unfold parse_origin. rewrite Q. reflexivity.
  - unfold parse_timing. rewrite Q. reflexivity.
Qed.
Lemma attribute_words : forall k v v', In k word_attributes -> split_whitespace v = split_whitespace v' -> is_empty v = is_empty v' ->
  mem_str k flag_names = false /\ exists p, assoc_str k attr_parsers = Some p /\ p v = p v'.
Proof.
  intros k v v' I Q Em.
  repeat (destruct I as [<-|I]; [split; [vm_compute; reflexivity|]; eexists; split; [cbv - [parse_candidate parse_extmap parse_fingerprint parse_group
    parse_ice_options parse_msid parse_msid_semantic parse_remote_candidates parse_rtcp parse_rtpmap parse_sctpmap parse_simulcast parse_ssrc_group]; reflexivity|];
    unfold parse_candidate, parse_extmap, parse_fingerprint, parse_group, parse_ice_options, parse_msid, parse_msid_semantic,
      parse_remote_candidates, parse_rtcp, parse_rtpmap, parse_sctpmap, parse_simulcast, parse_ssrc_group; rewrite ?Q, ?Em; reflexivity|]).
  destruct I.
Qed.

(** ** Lines *)
Definition same_result (x y : str) (n : nat) : Prop :=
  match parse_sdp_line x n, parse_sdp_line y n with
  | Ok a, Ok b => l_number a = l_number b /\ l_type a = l_type b
  | Err a, Err b => erase_text a = erase_text b /\ inner a = inner b
  | Panic, Panic => True
  | _, _ => False
  end.
Lemma value_result : forall t v v' n, ~ In 61 t -> is_empty (trim v) = is_empty (trim v') ->
  parse_value (to_lower (trim t)) (trim v) v = parse_value (to_lower (trim t)) (trim v') v' ->
  same_result (t ++ [61] ++ v) (t ++ [61] ++ v') n.
Proof.
  intros t v v' n T Em Q. unfold same_result, parse_sdp_line.
  change (t ++ [61] ++ v) with (t ++ c_eq :: v). change (t ++ [61] ++ v') with (t ++ c_eq :: v').
  assert (C : forall v, contains c_eq (t ++ c_eq :: v) = true) by (intro u; apply contains_In, in_app_iff; right; left; reflexivity).
  rewrite !C, !splitn2_app by (apply contains_not_In; exact T). cbn [negb]. cbv zeta. rewrite Em, Q.
  destruct (1 <? byte_len (trim t)); [cbn; auto|]. destruct (is_empty (trim t)); [cbn; auto|].
  destruct (_ && _); [cbn; auto|]. clear Q. destruct (parse_value _ _ _) as [ty|e|]; [split; reflexivity|destruct e; split; reflexivity|exact I].
Qed.
Lemma one_letter : forall t k, recased t [k] -> 97 <= k <= 122 -> t = [k] \/ t = [k - 32].
Proof.
  intros t k R K. inversion R as [|c d s s' L R']; subst. inversion R'; subst. clear R R'. unfold same_letter, ascii_lower in L.
  destruct ((65 <=? c) && (c <=? 90)) eqn:B, ((65 <=? k) && (k <=? 90)) eqn:B'; try lia; [right|left]; f_equal; lia.
Qed.
Lemma letter_type : forall t k, recased t [k] -> 97 <= k <= 122 -> ~ In 61 t /\ to_lower (trim t) = to_lower (trim [k]).
Proof.
  intros t k R K. split.
  - intro I. apply (recased_contains 61 _ _ R) in I; [|left; lia]. destruct I as [->|[]]. lia.
  - destruct (one_letter _ _ R K) as [->| ->]; [reflexivity|].
    assert (D : In k (map N.of_nat (seq 97 26))).
    { apply in_map_iff. exists (N.to_nat k). split; [apply N2Nat.id|]. apply in_seq. lia. }
    vm_compute in D. repeat (destruct D as [<-|D]; [vm_compute; reflexivity|]). destruct D.
Qed.
Lemma type_result : forall c t v v' n, 97 <= c <= 122 -> to_lower (trim [c]) = [c] -> recased t [c] ->
  is_empty (trim v) = is_empty (trim v') -> parse_value [c] (trim v) v = parse_value [c] (trim v') v' ->
  same_result (t ++ [61] ++ v) (t ++ [61] ++ v') n.
Proof.
  intros c t v v' n C L R Em Q. destruct (letter_type _ _ R C) as (T1 & T2). rewrite L in T2.
  apply value_result; [exact T1|exact Em|]. rewrite T2. exact Q.
Qed.
(** A name of letters, in lower case, before a colon. *)
Definition name_ok (k : str) : Prop := exists c w, k = c :: w /\ 97 <= c <= 122 /\ ~ In 58 k /\ to_lower k = k.
Lemma name_starts : forall k name, name_ok k -> recased name k -> ~ In 58 name /\ starts_ok name.
Proof.
  intros k name (c & w & Ek & Cc & N58 & Lk) RN. split.
  - intro X. apply N58. apply (recased_contains 58 _ _ RN); [left; lia|exact X].
  - rewrite Ek in RN. inversion RN as [|d d' s s' L R' X1 X2]; subst. exists d, s. split; [reflexivity|].
    unfold same_letter, ascii_lower in L. assert (65 <= d <= 122) by (destruct ((65 <=? d) && (d <=? 90)) eqn:X, ((65 <=? c) && (c <=? 90)) eqn:Y; lia).
    assert (D : In d (map N.of_nat (seq 65 58))).
    { apply in_map_iff. exists (N.to_nat d). split; [apply N2Nat.id|]. apply in_seq. lia. }
    vm_compute in D. repeat (destruct D as [<-|D]; [vm_compute; reflexivity|]). destruct D.
Qed.
Lemma trim_of_end : forall u, trim (trim_end u) = trim u.
Proof.
  intro u. destruct (trim_end_suffix u) as (b & Eb & Wb). rewrite Eb at 2.
  change (trim_end u ++ b) with ([] ++ trim_end u ++ b). symmetry. apply trim_pad; [reflexivity|exact Wb].
Qed.
Lemma attribute_result : forall k t name v v' n p, name_ok k -> recased t (lit "a") -> recased name k ->
  mem_str k flag_names = false -> assoc_str k attr_parsers = Some p -> p (trim v) = p (trim v') ->
  same_result (t ++ [61] ++ name ++ [58] ++ v) (t ++ [61] ++ name ++ [58] ++ v') n.
Proof.
  intros k t name v v' n p NK R RN F P1 P2. pose proof (name_starts _ _ NK RN) as (NN & SN). destruct NK as (? & ? & _ & _ & _ & Lk).
  assert (C : 97 <= 97 <= 122) by lia. destruct (letter_type t 97 R C) as (T1 & T2).
  change (name ++ [58] ++ v) with (name ++ 58 :: v). change (name ++ [58] ++ v') with (name ++ 58 :: v').
  apply value_result; [exact T1| |].
  - rewrite !trim_name by assumption. destruct name; reflexivity.
  - rewrite T2. change (to_lower (trim [97])) with [97]. unfold parse_value.
    change (str_eqb [97] (lit "a")) with true. cbv iota. unfold parse_attribute.
    rewrite !trim_idem, !trim_name by assumption. unfold attr_from_str. change c_colon with 58.
    rewrite !splitn2_app by (apply contains_not_In; exact NN). cbn [idx nth_error bind List.length Nat.ltb Nat.leb andb].
    rewrite (lower_recased _ _ RN), Lk.
    rewrite !trim_of_end, F, P1, P2. reflexivity.
Qed.
Definition name_okb (k : str) : bool :=
  match k with c :: _ => (97 <=? c) && (c <=? 122) | [] => false end && negb (contains 58 k) && str_eqb (to_lower k) k.
Lemma name_ok_b : forall k, name_okb k = true -> name_ok k.
Proof.
  intros k H. unfold name_okb in H. destruct k as [|c w]; [discriminate|]. apply andb_true_iff in H. destruct H as (H & L).
  apply andb_true_iff in H. destruct H as (H & N). exists c, w. split; [reflexivity|]. split; [lia|].
  split; [|apply str_eqb_eq; exact L]. apply contains_not_In. apply negb_true_iff. exact N.
Qed.
Lemma respaced_result : forall x y n, respaced x y -> same_result x y n.
Proof.
  intros x y n R. destruct R as [k t v v' I R B|k t name v v' I R RN B].
  - assert (K : exists c, k = [c] /\ 97 <= c <= 122 /\ to_lower (trim k) = k).
    { repeat (destruct I as [<-|I]; [eexists; split; [vm_compute; reflexivity|]; split; [lia|vm_compute; reflexivity]|]). destruct I. }
    destruct K as (c & -> & C & L). apply (type_result c); [exact C|exact L|exact R|exact (same_empty _ _ B)|].
    apply type_words; [exact I|exact (same_words _ _ B)].
  - destruct (attribute_words k (trim v) (trim v') I (same_words _ _ B) (same_empty _ _ B)) as (F & p & P1 & P2).
    refine (attribute_result k t name v v' n p _ R RN F P1 P2).
    apply name_ok_b. repeat (destruct I as [<-|I]; [vm_compute; reflexivity|]). destruct I.
Qed.
Lemma respaced_not_blank : forall x y, respaced x y -> ~ SpecDoc.blank x /\ ~ SpecDoc.blank y.
Proof.
  assert (K : forall a b, ~ SpecDoc.blank (a ++ [61] ++ b)).
  { intros a b H. unfold SpecDoc.blank in H. rewrite Forall_forall in H. assert (C : is_ws 61 = true); [apply H|discriminate].
    apply in_app_iff. right. left. reflexivity. }
  intros x y [k t v v' I R B|k t name v v' I R RN B]; split; apply K.
Qed.

(** ** Documents *)
Section Documents.
Variable R : str -> str -> Prop.
Hypothesis R_blank : forall x y, R x y -> (SpecDoc.blank x <-> SpecDoc.blank y).
Hypothesis R_result : forall x y n, R x y ->
  match parse_sdp_line x n, parse_sdp_line y n with
  | Ok a, Ok b => l_number a = l_number b /\ same_type (l_type a) (l_type b)
  | Err a, Err b => erase_text a = erase_text b
  | Panic, Panic => True
  | _, _ => False
  end.
Lemma scan_like : forall l1 l2, Forall2 R l1 l2 -> forall n L H W, Scan n l1 L H W ->
  exists L' H' W', Scan n l2 L' H' W' /\ Forall2 same_line L L' /\ map erase_text H = map erase_text H' /\
    map erase_text W = map erase_text W'.
Proof.
  intros l1 l2 F. induction F as [|x y l1 l2 P F IH]; intros n L H W S.
  - inv S. exists [], [], []. repeat split; constructor.
  - pose proof (R_blank _ _ P) as PB. pose proof (R_result _ _ n P) as PR.
    inv S; match goal with K : Scan _ l1 _ _ _ |- _ => destruct (IH _ _ _ _ K) as [L' [H' [W' [S' [Q1 [Q2 Q3]]]]]] end.
    + exists L', H', W'. split; [apply Scan_blank; tauto|auto].
    + match goal with K : parse_sdp_line x n = Ok _ |- _ => rewrite K in PR end.
      destruct (parse_sdp_line y n) as [l'|e'|] eqn:PY; try contradiction.
      exists (l' :: L'), H', W'. split; [apply Scan_ok; tauto|]. split; [constructor; auto|auto].
    + match goal with K : parse_sdp_line x n = Err _ |- _ => rewrite K in PR end.
      destruct (parse_sdp_line y n) as [l'|e'|] eqn:PY; try contradiction.
      destruct (line_err _ _ _ PY) as [[z ->]|[z ->]]; [|discriminate].
      exists L', H', (PUnsupported z y n :: W'). split; [apply Scan_warn; tauto|]. split; auto. split; auto.
      cbn [map]. congruence.
    + match goal with K : parse_sdp_line x n = Err _ |- _ => rewrite K in PR end.
      destruct (parse_sdp_line y n) as [l'|e'|] eqn:PY; try contradiction.
      destruct (line_err _ _ _ PY) as [[z ->]|[z ->]]; [discriminate|].
      exists L', (PLine z y n :: H'), W'. split; [apply Scan_hard; tauto|]. split; auto. split; auto.
      cbn [map]. congruence.
Qed.
Lemma like_document : forall sdp1 sdp2 b, 51 <= byte_len sdp1 -> 51 <= byte_len sdp2 ->
  Forall2 R (lines sdp1) (lines sdp2) ->
  erase_text_result (parse_sdp sdp1 b) = erase_text_result (parse_sdp sdp2 b).
Proof.
  intros sdp1 sdp2 b B1 B2 F.
  assert (LE : forall H, last_error (map erase_text H) = option_map erase_text (last_error H)).
  { intros H. unfold last_error. rewrite <- map_rev. destruct (rev H); auto. }
  destruct (parse_cases sdp1 B1) as [[L [H [W S]]]|P].
  - destruct (scan_like _ _ F _ _ _ _ S) as [L' [H' [W' [S' [Q1 [Q2 Q3]]]]]].
    rewrite (parse_scan _ _ _ _ _ B1 S), (parse_scan _ _ _ _ _ B2 S'). unfold finish.
    rewrite (vector_same _ _ Q1).
    pose proof (LE H) as E1. pose proof (LE H') as E2. rewrite Q2 in E1. rewrite E1 in E2. clear E1.
    assert (X : erase_text_result match last_error H with
        | Some e => Err e | None => s <- parse_sdp_vector L' ;; Ok (session_with_warnings W s) end =
      erase_text_result match last_error H' with
        | Some e => Err e | None => s <- parse_sdp_vector L' ;; Ok (session_with_warnings W' s) end).
    { destruct (last_error H), (last_error H'); try discriminate.
      - cbn. cbn in E2. congruence.
      - destruct (parse_sdp_vector L') as [s|e|]; cbn; auto. unfold with_warnings, session_with_warnings. cbn. rewrite Q3. auto. }
    destruct b; auto. destruct W, W'; try discriminate; auto. cbn in Q3. inv Q3. cbn. congruence.
  - destruct (parse_cases sdp2 B2) as [[L [H [W S]]]|P2]; [|rewrite P, P2; auto].
    exfalso.
    assert (X : forall l1 l2, Forall2 R l1 l2 -> forall n L H W, Scan n l2 L H W -> exists L' H' W', Scan n l1 L' H' W').
    { clear - R_blank R_result. intros l1 l2 F. induction F as [|x y l1 l2 P F IH]; intros n L H W S; [exists [], [], []; constructor|].
      pose proof (R_blank _ _ P) as PB. pose proof (R_result _ _ n P) as PR.
      destruct (blank_dec x) as [BX|BX].
      - inv S; try tauto. match goal with K : Scan _ l2 _ _ _ |- _ => destruct (IH _ _ _ _ K) as [L' [H' [W' S']]] end. exists L', H', W'. apply Scan_blank; auto.
      - assert (S0 : exists L H W, Scan (Datatypes.S n) l2 L H W) by (inv S; eauto).
        destruct S0 as [L0 [H0 [W0 S0]]]. destruct (IH _ _ _ _ S0) as [L' [H' [W' S']]].
        destruct (parse_sdp_line x n) as [l|e|] eqn:PX.
        + exists (l :: L'), H', W'. apply Scan_ok; auto.
        + destruct (line_err _ _ _ PX) as [[z ->]|[z ->]].
          * exists L', H', (PUnsupported z x n :: W'). apply Scan_warn; auto.
          * exists L', (PLine z x n :: H'), W'. apply Scan_hard; auto.
        + exfalso. destruct (parse_sdp_line y n) eqn:PY; try contradiction.
          inv S; try tauto; congruence. }
    destruct (X _ _ F _ _ _ _ S) as [L' [H' [W' S']]]. specialize (P false).
    rewrite (parse_scan _ _ _ _ _ B1 S') in P. unfold finish in P. destruct (last_error H'); [discriminate|].
    destruct (parse_sdp_vector L') eqn:V; try discriminate. apply vector_np in V. contradiction.
Qed.
End Documents.

Lemma reworded_blank : forall x y, reworded x y -> (SpecDoc.blank x <-> SpecDoc.blank y).
Proof. intros x y [P|R]; [exact (padded_blank _ _ P)|]. apply respaced_not_blank in R. tauto. Qed.
Lemma reworded_result : forall x y n, reworded x y ->
  match parse_sdp_line x n, parse_sdp_line y n with
  | Ok a, Ok b => l_number a = l_number b /\ same_type (l_type a) (l_type b)
  | Err a, Err b => erase_text a = erase_text b
  | Panic, Panic => True
  | _, _ => False
  end.
Proof.
  intros x y n [P|R]; [exact (padded_result _ _ n P)|]. pose proof (respaced_result _ _ n R) as K. unfold same_result in K.
  destruct (parse_sdp_line x n), (parse_sdp_line y n); try contradiction; auto; [|tauto].
  destruct K as (K1 & K2). split; [exact K1|left; exact K2].
Qed.
Lemma reworded_document : forall sdp1 sdp2 b, 51 <= byte_len sdp1 -> 51 <= byte_len sdp2 ->
  Forall2 reworded (lines sdp1) (lines sdp2) ->
  erase_text_result (parse_sdp sdp1 b) = erase_text_result (parse_sdp sdp2 b).
Proof. exact (like_document reworded reworded_blank reworded_result). Qed.
End WithExt.

(** * Why lines are refused (proofs for C68) *)
From Coq Require Import List NArith ZArith Bool Ascii String Lia.
From Coq Require Import ZifyBool ZifyNat ZifyN.
From Verif Require Import Str Num Net Types Ext Show Address AttrParse Media Session.
From Verif Require Import StrLemmas NumLemmas NetLemmas.
From Verif Require Import SpecApi SpecDoc SpecVal SpecUnsup SpecWhy PPanic PDoc PDoc2 PDoc3 PDoc4.
From Verif Require Import PVal PVal2 PVal3 PVal4 PVal5 PVal6 PVal7 PVal8 PVal9 SpecIp PIp PIp2 PGram PUnsup.
Import ListNotations.
Open Scope N_scope.
Open Scope list_scope.

(** ** Rules and results *)
Definition hard (e : ierr) : Prop := forall m, e <> EUnsupported m.
Definition kept {A} (r : res ierr A) (c : rule) : Prop :=
  (fst c <-> exists a, r = Ok a) /\ forall e, hard e -> (snd c e <-> r = Err e).

Lemma broken_nil : forall e, ~ first_broken [] e.
Proof. intros e H. inversion H. Qed.
Lemma broken_cons : forall r rs e, first_broken (r :: rs) e <-> snd r e \/ (fst r /\ first_broken rs e).
Proof.
  intros r rs e. split.
  - intro H. inversion H; subst; auto.
  - intros [H|[H1 H2]]; [apply broken_here, H | apply broken_later; assumption].
Qed.
Lemma broken_bind : forall {A B} (r : res ierr A) (f : A -> res ierr B) c cs e, hard e -> kept r c ->
  (forall a, r = Ok a -> (first_broken cs e <-> f a = Err e)) ->
  (first_broken (c :: cs) e <-> bind r f = Err e).
Proof.
  intros A B r f c cs e He [K1 K2] H. rewrite broken_cons, (K2 e He), K1.
  destruct r as [a|x|]; cbn [bind].
  - split.
    + intros [X|[_ X]]; [discriminate | apply (H a eq_refl), X].
    + intro X. right. split; [eauto | apply (H a eq_refl), X].
  - split.
    + intros [X|[(a & X) _]]; [congruence | discriminate].
    + intro X. left. congruence.
  - split; [|discriminate]. intros [X|[(a & X) _]]; discriminate.
Qed.
Lemma broken_last : forall {A} (r : res ierr A) c e, hard e -> kept r c ->
  (first_broken [c] e <-> r = Err e).
Proof.
  intros A r c e He [K1 K2]. rewrite broken_cons, (K2 e He). split; [|auto].
  intros [X|[_ X]]; [exact X | destruct (broken_nil _ X)].
Qed.
Lemma broken_must : forall (p : Prop) t cs e, (p \/ ~ p) ->
  (first_broken (must p t :: cs) e <-> (~ p /\ e = complains t) \/ (p /\ first_broken cs e)).
Proof. intros p t cs e D. rewrite broken_cons. reflexivity. Qed.
Lemma broken_must_ok : forall (p : Prop) t cs e, p -> (first_broken (must p t :: cs) e <-> first_broken cs e).
Proof. intros p t cs e P. rewrite broken_cons. cbn [must fst snd]. tauto. Qed.
Lemma broken_must_not : forall (p : Prop) t cs e, ~ p -> (first_broken (must p t :: cs) e <-> e = complains t).
Proof. intros p t cs e P. rewrite broken_cons. cbn [must fst snd]. tauto. Qed.

Lemma broken_must_err : forall {A} (p : Prop) t cs e x, ~ p -> x = complains t ->
  (first_broken (must p t :: cs) e <-> @Err ierr A x = Err e).
Proof. intros A p t cs e x P ->. rewrite broken_must_not by exact P. split; congruence. Qed.

Lemma about_kept : forall {A} (r : res ierr A) ws i c w, nth_error ws i = Some w -> kept r (c w) ->
  kept r (about ws i c).
Proof.
  intros A r ws i c w Hw [K1 K2]. unfold about. split; cbn [fst snd].
  - rewrite <- K1. split; [intros (x & Hx & H); congruence | eauto].
  - intros e He. rewrite <- (K2 e He). split; [intros (x & Hx & H); congruence | eauto].
Qed.
Lemma must_kept : forall {A} (r : res ierr A) (p : Prop) t, (p <-> exists a, r = Ok a) ->
  (~ p -> r = Err (complains t)) -> (p \/ ~ p) -> kept r (must p t).
Proof.
  intros A r p t H1 H2 D. split; [exact H1|]. intros e _. cbn [must snd]. split.
  - intros [N ->]. exact (H2 N).
  - intro X. destruct D as [P|N].
    + apply H1 in P. destruct P as (a & P). congruence.
    + split; [exact N|]. specialize (H2 N). congruence.
Qed.

(** ** Numbers *)
Lemma digits_err : forall max s acc k, acc <= max ->
  (parse_digits 10 max acc s = Err k <->
   exists p c rest, s = p ++ c :: rest /\ Forall is_digit p /\
     fold_left (fun a c => 10 * a + (c - 48)) p acc <= max /\
     ((~ is_digit c /\ k = IntInvalidDigit) \/
      (is_digit c /\ max < fold_left (fun a c => 10 * a + (c - 48)) (p ++ [c]) acc /\ k = IntPosOverflow))).
Proof.
  assert (Mono : forall p acc, acc <= fold_left (fun a c => 10 * a + (c - 48)) p acc).
  { induction p as [|c p IH]; intro acc; cbn [fold_left]; [lia|]. specialize (IH (10 * acc + (c - 48))). lia. }
  intros max s. induction s as [|c s IH]; intros acc k L; cbn [parse_digits].
  - split; [discriminate|]. intros (p & c & rest & H & _). destruct p; discriminate.
  - destruct (to_digit 10 c) as [d|] eqn:D.
    + apply to_digit_dec in D. destruct D as [D ->].
      destruct (N.ltb_spec max (acc * 10 + (c - 48))) as [O|O].
      * split.
        -- intro H. inv H. exists [], c, s. split; [reflexivity|]. split; [constructor|].
           split; [exact L|]. right. split; [exact D|]. split; [cbn [app fold_left]; lia | reflexivity].
        -- intros (p & c' & rest & H & F & B & K). destruct p as [|x p].
           ++ cbn [app] in H. injection H as -> ->. destruct K as [[K _]|[_ [_ ->]]]; [contradiction | reflexivity].
           ++ cbn [app] in H. injection H as -> ->. exfalso. cbn [fold_left] in B.
              pose proof (Mono p (10 * acc + (x - 48))). lia.
      * rewrite IH by exact O. split.
        -- intros (p & c' & rest & -> & F & B & K). exists (c :: p), c', rest. split; [reflexivity|].
           split; [constructor; assumption|]. cbn [app fold_left].
           replace (10 * acc + (c - 48)) with (acc * 10 + (c - 48)) by lia. auto.
        -- intros (p & c' & rest & H & F & B & K). destruct p as [|x p].
           ++ cbn [app] in H. injection H as <- <-. exfalso. cbn [app fold_left] in K.
              destruct K as [[K _]|[_ [K _]]]; [contradiction | lia].
           ++ cbn [app] in H. injection H as <- ->. inversion F; subst. exists p, c', rest. split; [reflexivity|].
              split; [assumption|]. cbn [app fold_left] in B, K.
              replace (10 * acc + (c - 48)) with (acc * 10 + (c - 48)) in * by lia. auto.
    + assert (Nd : ~ is_digit c).
      { intro K. assert (X : to_digit 10 c = Some (c - 48)) by (apply to_digit_dec; auto). congruence. }
      split.
      * intro H. inv H. exists [], c, s. split; [reflexivity|]. split; [constructor|]. split; [exact L|]. left. auto.
      * intros (p & c' & rest & H & F & B & K). destruct p as [|x p].
        -- cbn [app] in H. injection H as -> ->. destruct K as [[_ ->]|[K _]]; [reflexivity | contradiction].
        -- cbn [app] in H. injection H as -> ->. inversion F; subst. contradiction.
Qed.
Lemma wrong_number_iff : forall max s k, wrong_number max s k <-> parse_uint 10 max s = Err k.
Proof.
  intros max s k. unfold wrong_number, parse_uint.
  assert (Q : forall b, (exists p c rest, b = p ++ c :: rest /\ Forall is_digit p /\
     dec_value p <= max /\ ((~ is_digit c /\ k = IntInvalidDigit) \/
      (is_digit c /\ max < dec_value (p ++ [c]) /\ k = IntPosOverflow))) <-> parse_digits 10 max 0 b = Err k).
  { intro b. rewrite digits_err by lia. reflexivity. }
  destruct s as [|c0 s].
  - split.
    + intros [[_ ->]|(sign & p & c & rest & H & _)]; [reflexivity|].
      destruct sign, p; discriminate.
    + intro H. inv H. left. auto.
  - assert (G : (exists sign p c rest, c0 :: s = sign ++ p ++ c :: rest /\ (sign = [] \/ sign = [43]) /\
        Forall is_digit p /\ dec_value p <= max /\
        ((~ is_digit c /\ ~ (sign = [] /\ p = [] /\ c = 43 /\ rest <> []) /\ k = IntInvalidDigit) \/
         (is_digit c /\ max < dec_value (p ++ [c]) /\ k = IntPosOverflow))) <->
      (if (c0 =? 43) && negb (is_empty s) then parse_digits 10 max 0 s else parse_digits 10 max 0 (c0 :: s)) = Err k).
    { destruct ((c0 =? 43) && negb (is_empty s)) eqn:B.
      - assert (c0 = 43) by lia. subst c0. assert (s <> []) by (destruct s; [discriminate | discriminate]).
        rewrite <- Q. split.
        + intros (sign & p & c & rest & H' & [->| ->] & F & L & K).
          * cbn [app] in H'. destruct p as [|x p].
            -- cbn [app] in H'. injection H' as <- <-. exfalso. destruct K as [[_ [K _]]|[K _]].
               ++ apply K. auto.
               ++ unfold is_digit in K. lia.
            -- cbn [app] in H'. injection H' as <- _. inversion F as [|? ? D _]; subst. unfold is_digit in D. lia.
          * cbn [app] in H'. injection H' as ->. exists p, c, rest. split; [reflexivity|]. split; [exact F|].
            split; [exact L|]. destruct K as [[K1 [_ K2]]|K]; auto.
        + intros (p & c & rest & -> & F & L & K). exists [43], p, c, rest. split; [reflexivity|].
          split; [auto|]. split; [exact F|]. split; [exact L|]. destruct K as [[K1 K2]|K]; [left|right; exact K].
          split; [exact K1|]. split; [intros [X _]; discriminate | exact K2].
      - rewrite <- Q. split.
        + intros (sign & p & c & rest & H' & [->| ->] & F & L & K).
          * exists p, c, rest. split; [exact H'|]. split; [exact F|]. split; [exact L|].
            destruct K as [[K1 [_ K2]]|K]; auto.
          * exfalso. cbn [app] in H'. injection H' as -> ->.
            destruct (p ++ c :: rest) eqn:X; [destruct p; discriminate | discriminate B].
        + intros (p & c & rest & H' & F & L & K). exists [], p, c, rest. split; [exact H'|]. split; [auto|].
          split; [exact F|]. split; [exact L|]. destruct K as [[K1 K2]|K]; [left|right; exact K].
          split; [exact K1|]. split; [|exact K2]. intros (_ & -> & -> & N). cbn [app] in H'. injection H' as -> ->.
          destruct rest; [congruence | discriminate B]. }
    rewrite G. clear G.
    assert (Z : forall X : Prop, ((c0 :: s = [] /\ k = IntEmpty) \/ X) <-> X).
    { intro X. split; [intros [[H _]|H]; [discriminate | exact H] | auto]. }
    rewrite Z. destruct s as [|c1 s].
    + cbn [is_empty negb]. rewrite andb_false_r. unfold c_plus, c_minus.
      destruct (N.eqb_spec c0 43) as [->|N1]; [reflexivity|].
      destruct (N.eqb_spec c0 45) as [->|N2]; [reflexivity|]. reflexivity.
    + cbn [is_empty negb]. rewrite andb_true_r. unfold c_plus. destruct (c0 =? 43); reflexivity.
Qed.
Lemma number_kept : forall max s, kept (res_map_err EInteger (parse_uint 10 max s)) (number max s).
Proof.
  intros max s. unfold number. split; cbn [fst snd].
  - setoid_rewrite numeral_iff. destruct (parse_uint 10 max s) as [a|x|]; cbn [res_map_err].
    + split; intros (n & H); exists n; congruence.
    + split; intros (n & H); discriminate.
    + split; intros (n & H); discriminate.
  - intros e _. setoid_rewrite wrong_number_iff. destruct (parse_uint 10 max s) as [a|x|]; cbn [res_map_err].
    + split; [intros (k & H & _); discriminate | discriminate].
    + split; [intros (k & H & ->); congruence | intro H; exists x; split; [reflexivity | congruence]].
    + split; [intros (k & H & _); discriminate | discriminate].
Qed.
Lemma decimal_iff : forall n d, decimal n d <-> d = show_N n.
Proof.
  intros n d. unfold decimal. split.
  - intros (N0 & F & V & Z). 
    assert (D : digits_are 10 d n).
    { subst n. clear N0 Z. induction d as [|c d IH] using rev_ind; [constructor|].
      apply Forall_app in F. destruct F as [F1 F2]. inversion F2 as [|? ? Dc _]; subst.
      unfold dec_value. rewrite fold_left_app. cbn [fold_left]. fold (dec_value d).
      replace (10 * dec_value d + (c - 48)) with (dec_value d * 10 + (c - 48)) by lia.
      apply digits_more; [apply IH, F1| |unfold is_digit in Dc; lia].
      unfold digit_is, is_digit in *. lia. }
    apply one_text; [lia | lia | exact D | exact N0 | exact Z | eapply dec_lower; exact D].
  - intros ->. split; [apply show_N_nonempty|]. split.
    { pose proof (show_N_chars n) as H. rewrite forallb_forall in H. apply Forall_forall. intros c Hc.
      apply H in Hc. unfold dec_char in Hc. unfold is_digit. lia. }
    split; [apply dec_value_show|].
    intros r Hr. destruct (show_radix_spec digit_lower 10 n ltac:(lia)) as (ds & E1 & _ & _ & C).
    change (show_radix digit_lower 10 n) with (show_N n) in E1. rewrite E1 in Hr.
    destruct C as [C0 C]. destruct C as [L|(x & ds' & -> & P)].
    + destruct ds as [|a [|b ds]]; try discriminate; cbn in *; try lia. inv Hr. reflexivity.
    + cbn [map] in Hr. injection Hr as Hr _. unfold digit_lower in Hr. destruct (x <? 10); lia.
Qed.

Section WithExt.
Context {E : Ext}.

(** ** Addresses *)
Lemma decidable_means : forall s name, upper_word (of_string name) = true ->
  means_upper s name \/ ~ means_upper s name.
Proof.
  intros s name U. rewrite (means_upper_iff s name U).
  destruct (str_eqb_spec (to_upper s) (of_string name)); auto.
Qed.
Lemma network_kept : forall s, kept (parse_network_type s) (network s).
Proof.
  intro s. assert (D := decidable_means s "IN" eq_refl). apply must_kept; [| |exact D].
  - split; [intro H; exists tt; apply network_iff, H | intros (u & H); apply network_iff in H; exact H].
  - intro N. unfold parse_network_type. destruct (str_eqb (to_upper s) (lit "IN")) eqn:K; [|reflexivity].
    exfalso. apply N. apply (network_iff s tt). unfold parse_network_type. rewrite K. reflexivity.
Qed.
Lemma address_kind_kept : forall s, kept (parse_address_type s) (address_kind s).
Proof.
  intro s. assert (D : forall t, parse_address_type s = Ok t <-> means_upper s (addr_type_name t)).
  { intro t. apply address_type_iff. }
  apply must_kept.
  - split; intros (t & H); exists t; apply D, H.
  - intro N. destruct (parse_address_type s) as [t|x|] eqn:P.
    + exfalso. apply N. exists t. apply D. reflexivity.
    + revert P. unfold parse_address_type. destruct (addr_type_from_str (to_upper s)); cbn [res_map_err]; intro P; inv P.
      reflexivity.
    + revert P. unfold parse_address_type, addr_type_from_str. destruct (assoc_str _ _); discriminate.
  - destruct (parse_address_type s) as [t|x|] eqn:P.
    + left. exists t. apply D. reflexivity.
    + right. intros (t & H). apply D in H. discriminate.
    + right. intros (t & H). apply D in H. discriminate.
Qed.
Lemma wrong_address_iff : forall s e, wrong_address s e <-> address_from_str s = Err e.
Proof.
  intros s e. unfold wrong_address, address_from_str.
  destruct (contains c_colon s) eqn:C.
  - apply contains_In in C. change c_colon with 58 in C. destruct (parse_ip s) as [i|].
    + split; [intros [N _]; exfalso; apply N; eauto | discriminate].
    + destruct (host_parse s) as [h|m|].
      * split; [intros [_ (m & H & _)]; discriminate | discriminate].
      * split.
        -- intros [_ (m' & H & [[_ ->]|[N _]])]; [reflexivity | contradiction].
        -- intro H. inv H. split; [intros [_ (i & H)]; discriminate|]. exists m. auto.
      * split; [intros [_ (m & H & _)]; discriminate | discriminate].
  - apply contains_not_In in C. change c_colon with 58 in C. destruct (host_parse s) as [h|m|].
    + split; [intros [_ (m & H & _)]; discriminate | discriminate].
    + split.
      * intros [_ (m' & H & [[N _]|[_ ->]])]; [contradiction | inv H; reflexivity].
      * intro H. inv H. split; [tauto|]. exists m. auto.
    + split; [intros [_ (m & H & _)]; discriminate | discriminate].
Qed.
Lemma wrong_typed_iff : forall t s e, wrong_typed t s e <-> typed_address_try_from t s = Err e.
Proof.
  intros t s e. unfold wrong_typed, typed_address_try_from. rewrite wrong_address_iff.
  setoid_rewrite <- address_iff.
  destruct (address_from_str s) as [a|x|]; cbn [bind].
  - split.
    + intros [H|[(-> & n & H & ->)|(-> & n & H & ->)]]; [discriminate| |]; inv H; reflexivity.
    + intro H. right. destruct a as [d|[n|n]]; [discriminate| |]; destruct t; cbn in H; inv H; eauto.
  - split.
    + intros [H|[(_ & n & H & _)|(_ & n & H & _)]]; [congruence | discriminate | discriminate].
    + intro H. left. congruence.
  - split; [|discriminate]. intros [H|[(_ & n & H & _)|(_ & n & H & _)]]; discriminate.
Qed.
Lemma typed_kept : forall ty t s, parse_address_type ty = Ok t ->
  kept (typed_address_try_from t s) (address_of_kind ty s).
Proof.
  intros ty t s Ht. unfold address_of_kind.
  assert (U : forall t', means_upper ty (addr_type_name t') <-> t' = t).
  { intro t'. rewrite <- address_type_iff. rewrite Ht. split; congruence. }
  split; cbn [fst snd].
  - split.
    + intros (t' & a & H1 & H2). apply U in H1. subst t'. exists a. apply typed_iff, H2.
    + intros (a & H). exists t, a. split; [apply U; reflexivity | apply typed_iff, H].
  - intros e _. rewrite <- wrong_typed_iff. split.
    + intros (t' & H1 & H2). apply U in H1. subst t'. exact H2.
    + intro H. exists t. split; [apply U; reflexivity | exact H].
Qed.
Lemma typed_family : forall t s a, typed_address_try_from t s = Ok a -> typed_addr_type a = t.
Proof.
  intros t s a H. apply typed_iff in H.
  destruct H as [(d & _ & ->) | [(-> & n & _ & ->) | (-> & n & _ & ->)]]; reflexivity.
Qed.

(** ** Lines *)
Ltac rb := eapply broken_bind; [assumption | |].
Lemma version_why : forall v e, hard e ->
  ((exists t, core v t /\ first_broken (version_rules t) e) <-> parse_version (trim v) = Err e).
Proof.
  intros v e He. assert (G : first_broken (version_rules (trim v)) e <-> parse_version (trim v) = Err e).
  { unfold version_rules, parse_version. rb; [apply number_kept|]. intros n Hn.
    apply (p_u64_iff (trim v)) in Hn.
    rewrite broken_cons. cbn [fst snd]. destruct (N.eqb_spec n 0) as [->|N]; cbn [negb].
    - split; [|discriminate]. intros [(n & d & Hn' & N & _)|[_ X]]; [|destruct (broken_nil _ X)].
      exfalso. apply N. eapply p_u64_iff in Hn, Hn'. congruence.
    - assert (Q : fmt "version type contains unsupported value {}" [show_N n] =
                  lit "version type contains unsupported value " ++ show_N n).
      { transitivity (lit "version type contains unsupported value " ++ show_N n ++ []);
          [reflexivity | rewrite app_nil_r; reflexivity]. }
      split.
      + intros [(n' & d & Hn' & _ & D & ->)|[_ X]]; [|destruct (broken_nil _ X)].
        apply decimal_iff in D. subst d. apply p_u64_iff in Hn, Hn'. rewrite Hn in Hn'. inv Hn'.
        rewrite Q. reflexivity.
      + intro H. assert (e = EGeneric (fmt "version type contains unsupported value {}" [show_N n])) by congruence.
        left. exists n, (show_N n). split; [exact Hn|]. split; [exact N|].
        split; [apply decimal_iff; reflexivity|]. rewrite <- Q. assumption. }
  rewrite <- G. split.
  - intros (t & C & H). apply core_trim in C. subst t. exact H.
  - intro H. exists (trim v). split; [apply core_trim_self | exact H].
Qed.

Lemma gen_err : forall A t e, @Err ierr A (EGeneric t) = Err e <-> e = EGeneric t.
Proof. intros A t e. split; congruence. Qed.

Lemma origin_why : forall v e, hard e -> ~ blank v ->
  ((exists ws, words v ws /\ first_broken (origin_rules ws) e) <-> parse_origin (trim v) = Err e).
Proof.
  intros v e He Nb.
  assert (G : first_broken (origin_rules (split_whitespace v)) e <-> parse_origin (trim v) = Err e).
  { unfold parse_origin. rewrite sws_trim. unfold origin_rules.
    assert (Ne : split_whitespace v <> []).
    { intro K. apply Nb. apply words_sws in K. inversion K; assumption. }
    destruct (split_whitespace v) as [|t0 r]; [congruence|]. unfold present.
    destruct r as [|t1 r]; [apply broken_must_err; [cbn; lia | reflexivity]|].
    rewrite broken_must_ok by (cbn; lia).
    rb; [apply (about_kept _ _ _ _ t1); [reflexivity | apply number_kept]|]. intros id _.
    destruct r as [|t2 r]; [apply broken_must_err; [cbn; lia | reflexivity]|].
    rewrite broken_must_ok by (cbn; lia).
    rb; [apply (about_kept _ _ _ _ t2); [reflexivity | apply number_kept]|]. intros ver _.
    destruct r as [|t3 r]; [apply broken_must_err; [cbn; lia | reflexivity]|].
    rewrite broken_must_ok by (cbn; lia).
    rb; [apply (about_kept _ _ _ _ t3); [reflexivity | apply network_kept]|]. intros u _.
    destruct r as [|t4 r]; [apply broken_must_err; [cbn; lia | reflexivity]|].
    rewrite broken_must_ok by (cbn; lia).
    rb; [apply (about_kept _ _ _ _ t4); [reflexivity | apply address_kind_kept]|]. intros t Ht.
    destruct r as [|t5 r]; [apply broken_must_err; [cbn; lia | reflexivity]|].
    rewrite broken_must_ok by (cbn; lia).
    rb; [apply (about_kept _ _ _ _ t5); [reflexivity|]; apply (about_kept _ _ _ _ t4); [reflexivity|];
         apply typed_kept; exact Ht|].
    intros a Ha. apply typed_family in Ha. rewrite Ha.
    replace (addr_type_eqb t t) with true by (destruct t; reflexivity). cbn [negb].
    split; [intro H; destruct (broken_nil _ H) | discriminate]. }
  rewrite <- G. split.
  - intros (ws & W & H). apply words_sws in W. subst ws. exact H.
  - intro H. exists (split_whitespace v). split; [apply words_sws; reflexivity | exact H].
Qed.
Lemma timing_why : forall v e, hard e ->
  ((exists ws, words v ws /\ first_broken (timing_rules ws) e) <-> parse_timing (trim v) = Err e).
Proof.
  intros v e He.
  assert (G : first_broken (timing_rules (split_whitespace v)) e <-> parse_timing (trim v) = Err e).
  { unfold parse_timing. rewrite sws_trim. unfold timing_rules.
    destruct (split_whitespace v) as [|t0 [|t1 [|t2 r]]];
      try (cbn [List.length Nat.eqb negb]; apply broken_must_err; [discriminate | reflexivity]).
    cbn [List.length Nat.eqb negb idx nth_error bind]. rewrite broken_must_ok by reflexivity.
    rb; [apply (about_kept _ _ _ _ t0); [reflexivity | apply number_kept]|]. intros x _.
    rb; [apply (about_kept _ _ _ _ t1); [reflexivity | apply number_kept]|]. intros y _.
    split; [intro H; destruct (broken_nil _ H) | discriminate]. }
  rewrite <- G. split.
  - intros (ws & W & H). apply words_sws in W. subst ws. exact H.
  - intro H. exists (split_whitespace v). split; [apply words_sws; reflexivity | exact H].
Qed.
Lemma bandwidth_why : forall v e, hard e ->
  ((exists t fs, core v t /\ fields 58 t fs /\ first_broken (bandwidth_rules fs) e) <-> parse_bandwidth (trim v) = Err e).
Proof.
  intros v e He.
  assert (G : first_broken (bandwidth_rules (split c_colon (trim v))) e <-> parse_bandwidth (trim v) = Err e).
  { unfold parse_bandwidth, bandwidth_rules.
    destruct (split c_colon (trim v)) as [|t0 [|t1 [|t2 r]]];
      try (cbn [List.length Nat.eqb negb]; apply broken_must_err; [discriminate | reflexivity]).
    cbn [List.length Nat.eqb negb idx nth_error bind]. rewrite broken_must_ok by reflexivity.
    rb; [apply (about_kept _ _ _ _ t1); [reflexivity | apply number_kept]|]. intros x _.
    split; [intro H; destruct (broken_nil _ H) | discriminate]. }
  rewrite <- G. split.
  - intros (t & fs & C & F & H). apply core_trim in C. subst t. apply fields_split in F.
    change (split c_colon (trim v) = fs) in F. subst fs. exact H.
  - intro H. exists (trim v), (split c_colon (trim v)). split; [apply core_trim_self|].
    split; [apply fields_split; reflexivity | exact H].
Qed.

(** Fields between slashes. *)
Definition field_rule (w : str) (i : nat) (r : str -> rule) : rule :=
  ((exists l, fields 47 w l /\ forall x, nth_error l i = Some x -> fst (r x)),
   fun e => exists l x, fields 47 w l /\ nth_error l i = Some x /\ snd (r x) e).
Definition head_rule (w : str) (r : str -> rule) : rule :=
  ((exists p l, fields 47 w (p :: l) /\ fst (r p)), fun e => exists p l, fields 47 w (p :: l) /\ snd (r p) e).
Lemma fields_47 : forall w l, fields 47 w l <-> split c_slash w = l.
Proof. intros. apply fields_split. Qed.
Lemma field_kept : forall {A} (x : res ierr A) w i r t, nth_error (split c_slash w) i = Some t ->
  kept x (r t) -> kept x (field_rule w i r).
Proof.
  intros A x w i r t Ht [K1 K2]. unfold field_rule. split; cbn [fst snd].
  - rewrite <- K1. split.
    + intros (l & F & H). apply fields_47 in F. subst l. apply H, Ht.
    + intro H. exists (split c_slash w). split; [apply fields_47; reflexivity|]. intros y Hy. congruence.
  - intros e He. rewrite <- (K2 e He). split.
    + intros (l & y & F & Hy & H). apply fields_47 in F. subst l. congruence.
    + intro H. exists (split c_slash w), t. split; [apply fields_47; reflexivity | auto].
Qed.
Lemma head_kept : forall {A} (x : res ierr A) w r p l, split c_slash w = p :: l ->
  kept x (r p) -> kept x (head_rule w r).
Proof.
  intros A x w r p l Hw [K1 K2]. unfold head_rule. split; cbn [fst snd].
  - rewrite <- K1. split.
    + intros (q & l' & F & H). apply fields_47 in F. rewrite Hw in F. inv F. exact H.
    + intro H. exists p, l. split; [apply fields_47; exact Hw | exact H].
  - intros e He. rewrite <- (K2 e He). split.
    + intros (q & l' & F & H). apply fields_47 in F. rewrite Hw in F. inv F. exact H.
    + intro H. exists p, l. split; [apply fields_47; exact Hw | exact H].
Qed.
Lemma broken_skip : forall (r : rule) rs e, fst r -> ~ snd r e -> (first_broken (r :: rs) e <-> first_broken rs e).
Proof. intros r rs e H N. rewrite broken_cons. tauto. Qed.
Lemma about_skip : forall ws i (r : str -> rule) w rs e, nth_error ws i = Some w -> fst (r w) -> ~ snd (r w) e ->
  (first_broken (about ws i r :: rs) e <-> first_broken rs e).
Proof.
  intros ws i r w rs e Hw H N. apply broken_skip; cbn [about fst snd].
  - eauto.
  - intros (x & Hx & X). congruence.
Qed.
Lemma field_none : forall w i r e, nth_error (split c_slash w) i = None ->
  fst (field_rule w i r) /\ ~ snd (field_rule w i r) e.
Proof.
  intros w i r e H. unfold field_rule. cbn [fst snd]. split.
  - exists (split c_slash w). split; [apply fields_47; reflexivity|]. intros x Hx. congruence.
  - intros (l & x & F & Hx & _). apply fields_47 in F. subst l. congruence.
Qed.
Lemma bind_assoc : forall {A B C} (x : res ierr A) (f : A -> res ierr B) (g : B -> res ierr C),
  bind (bind x f) g = bind x (fun a => bind (f a) g).
Proof. intros. destruct x; reflexivity. Qed.

Lemma connection_why : forall v e, hard e ->
  ((exists ws, words v ws /\ first_broken (connection_rules ws) e) <-> parse_connection (trim v) = Err e).
Proof.
  intros v e He.
  assert (G : first_broken (connection_rules (split_whitespace v)) e <-> parse_connection (trim v) = Err e).
  { unfold parse_connection. rewrite sws_trim. unfold connection_rules.
    destruct (split_whitespace v) as [|t0 [|t1 [|t2 [|t3 r]]]];
      try (cbn [List.length Nat.eqb negb]; apply broken_must_err; [discriminate | reflexivity]).
    cbn [List.length Nat.eqb negb idx nth_error bind]. rewrite broken_must_ok by reflexivity.
    rb; [apply (about_kept _ _ _ _ t0); [reflexivity | apply network_kept]|]. intros u _.
    rb; [apply (about_kept _ _ _ _ t1); [reflexivity | apply address_kind_kept]|]. intros t Ht.
    set (ws := [t0; t1; t2]).
    assert (Last : forall a l (f : typed_address -> res ierr sdp_type), split c_slash t2 = a :: l ->
      (forall x, exists y, f x = Ok y) ->
      (first_broken [about ws 2 (fun w => head_rule w (fun a => about ws 1 (fun ty => address_of_kind ty a)))] e <->
       bind (typed_address_try_from t a) f = Err e)).
    { intros a l f Hs Hf. rb.
      - apply (about_kept _ _ _ _ t2); [reflexivity|]. apply (head_kept _ _ _ a l); [exact Hs|].
        apply (about_kept _ _ _ _ t1); [reflexivity|]. apply typed_kept, Ht.
      - intros x _. destruct (Hf x) as (y & Hy). rewrite Hy.
        split; [intro H; destruct (broken_nil _ H) | discriminate]. }
    match goal with |- _ <-> ?R => change (first_broken
      [ about ws 2 (fun w => field_rule w 2 (number u32_max)); about ws 2 (fun w => field_rule w 1 (number u8_max));
        about ws 2 (fun w => head_rule w (fun a => about ws 1 (fun ty => address_of_kind ty a)))] e <-> R) end.
    destruct (contains c_slash t2) eqn:C.
    - destruct (split c_slash t2) as [|a [|b [|c l]]] eqn:Hs.
      + destruct (split_nonempty c_slash t2 Hs).
      + exfalso. apply fields_47 in Hs. apply contains_In in C. inversion Hs; subst; [contradiction|].
        match goal with F : fields _ _ [] |- _ => inversion F end.
      + cbn [List.length Nat.leb idx nth_error bind].
        destruct (field_none t2 2 (number u32_max) e) as [N1 N2]; [rewrite Hs; reflexivity|].
        rewrite (about_skip ws 2 _ t2 _ _ eq_refl N1 N2). rewrite bind_assoc.
        rb; [apply (about_kept _ _ _ _ t2); [reflexivity|]; apply (field_kept _ _ _ _ b);
             [rewrite Hs; reflexivity | apply number_kept]|].
        intros ttl _. cbn [bind]. apply (Last a [b]); [reflexivity|]. intro x. eexists. reflexivity.
      + cbn [List.length Nat.leb idx nth_error bind]. rewrite !bind_assoc.
        rb; [apply (about_kept _ _ _ _ t2); [reflexivity|]; apply (field_kept _ _ _ _ c);
             [rewrite Hs; reflexivity | apply number_kept]|].
        intros amount _. cbn [bind]. rewrite bind_assoc.
        rb; [apply (about_kept _ _ _ _ t2); [reflexivity|]; apply (field_kept _ _ _ _ b);
             [rewrite Hs; reflexivity | apply number_kept]|].
        intros ttl _. cbn [bind]. apply (Last a (b :: c :: l)); [reflexivity|]. intro x. eexists. reflexivity.
    - assert (Hs : split c_slash t2 = [t2]).
      { apply fields_47. constructor. apply contains_not_In in C. exact C. }
      destruct (field_none t2 2 (number u32_max) e) as [N1 N2]; [rewrite Hs; reflexivity|].
      rewrite (about_skip ws 2 _ t2 _ _ eq_refl N1 N2).
      destruct (field_none t2 1 (number u8_max) e) as [N3 N4]; [rewrite Hs; reflexivity|].
      rewrite (about_skip ws 2 _ t2 _ _ eq_refl N3 N4). cbn [bind].
      apply (Last t2 []); [exact Hs|]. intro x. eexists. reflexivity. }
  rewrite <- G. split.
  - intros (ws & W & H). apply words_sws in W. subst ws. exact H.
  - intro H. exists (split_whitespace v). split; [apply words_sws; reflexivity | exact H].
Qed.

Lemma known_kept : forall {A} (r : res ierr A) (p : Prop), (p <-> exists a, r = Ok a) ->
  (forall e, r = Err e -> ~ hard e) -> kept r (known p).
Proof. intros A r p H1 H2. split; [exact H1|]. intros e He. cbn [known snd]. split; [tauto|]. intro X. destruct (H2 e X He). Qed.
Lemma kind_kept : forall w, kept (parse_media_token w) (known (exists m, means w (media_name m))).
Proof.
  intro w. apply known_kept.
  - split; intros (m & H); exists m; apply media_token_iff, H.
  - intros e H K. unfold parse_media_token in H. destruct (assoc_str _ _); [discriminate|].
    injection H as <-. exact (K _ eq_refl).
Qed.
Lemma protocol_kept : forall w, kept (parse_protocol_token w) (known (exists p, means_upper w (protocol_name p))).
Proof.
  intro w. apply known_kept.
  - split; intros (m & H); exists m; apply protocol_iff, H.
  - intros e H K. unfold parse_protocol_token in H. destruct (assoc_str _ _); [discriminate|].
    injection H as <-. exact (K _ eq_refl).
Qed.
Lemma formats_why : forall l e, hard e ->
  ((exists pre f post, l = pre ++ f :: post /\
      Forall (fun g => exists n, numeral u32_max g n /\ payload_listed n) pre /\
      (snd (number u32_max f) e \/
       (exists n, numeral u32_max f n /\ ~ payload_listed n) /\
        e = complains "format number in media line is out of range")) <->
   mapM (fun num => n <- p_u32 num ;;
          if format_out_of_range n
          then Err (gen "format number in media line is out of range") else Ok n) l = Err e).
Proof.
  intros l e He.
  set (one := fun num => n <- p_u32 num ;;
          if format_out_of_range n
          then Err (gen "format number in media line is out of range") else Ok n).
  assert (Ok1 : forall f, (exists n, numeral u32_max f n /\ payload_listed n) <-> exists n, one f = Ok n).
  { intro f. unfold one. split.
    - intros (n & H1 & H2). apply p_u32_iff in H1. rewrite H1. cbn [bind]. apply format_listed in H2. rewrite H2. eauto.
    - intros (n & H). okb H x Hx. destruct (format_out_of_range x) eqn:R; inv H. exists n.
      split; [apply p_u32_iff, Hx | apply format_listed, R]. }
  assert (Er1 : forall f, (snd (number u32_max f) e \/
       (exists n, numeral u32_max f n /\ ~ payload_listed n) /\
        e = complains "format number in media line is out of range") <-> one f = Err e).
  { intro f. destruct (number_kept u32_max f) as [_ K]. rewrite (K e He). fold (p_u32 f) in *.
    change (res_map_err EInteger (parse_uint 10 u32_max f)) with (p_u32 f). unfold one.
    setoid_rewrite <- p_u32_iff.
    destruct (p_u32 f) as [n|x|]; cbn [bind].
    - split.
      + intros [H|[(n' & H & N) ->]]; [discriminate|]. inv H.
        destruct (format_out_of_range n') eqn:R; [reflexivity|]. exfalso. apply N, format_listed, R.
      + destruct (format_out_of_range n) eqn:R; [|discriminate]. intro H. right. split.
        * exists n. split; [reflexivity|]. intro Q. apply format_listed in Q. congruence.
        * injection H as <-. reflexivity.
    - split; [intros [H|[(n & H & _) _]]; [congruence | discriminate] | intro H; left; congruence].
    - split; [intros [H|[(n & H & _) _]]; discriminate | discriminate]. }
  setoid_rewrite Er1. clear Er1.
  induction l as [|f l IH]; cbn [mapM].
  - split; [intros (pre & f & post & H & _); destruct pre; discriminate | discriminate].
  - split.
    + intros (pre & g & post & H & F & X). destruct pre as [|y pre].
      * cbn [app] in H. injection H as -> ->. rewrite X. reflexivity.
      * cbn [app] in H. injection H as -> ->. inversion F as [|? ? Fy Fp]; subst. apply Ok1 in Fy.
        destruct Fy as (n & Fy). rewrite Fy. cbn [bind].
        destruct IH as [IH _]. rewrite IH; [reflexivity|]. exists pre, g, post. auto.
    + destruct (one f) as [n|x|] eqn:O; cbn [bind].
      * intro H. destruct (mapM one l) as [ns|x|] eqn:M; cbn [bind] in H; try discriminate.
        assert (x = e) by congruence. subst x. destruct IH as [_ IH]. destruct (IH eq_refl) as (pre & g & post & -> & F & X).
        exists (f :: pre), g, post. split; [reflexivity|]. split; [|exact X].
        constructor; [apply Ok1; eauto | exact F].
      * intro H. exists [], f, l. split; [reflexivity|]. split; [constructor|]. rewrite O. congruence.
      * discriminate.
Qed.

Lemma media_why : forall v e, hard e ->
  ((exists ws, words v ws /\ first_broken (media_rules ws) e) <-> parse_media (trim v) = Err e).
Proof.
  intros v e He.
  assert (G : first_broken (media_rules (split_whitespace v)) e <-> parse_media (trim v) = Err e).
  { unfold parse_media. rewrite sws_trim. unfold media_rules.
    destruct (split_whitespace v) as [|t0 [|t1 [|t2 [|t3 r]]]];
      try (cbn [List.length Nat.ltb Nat.leb]; apply broken_must_err; [cbn; lia | reflexivity]).
    cbn [List.length Nat.ltb Nat.leb idx nth_error bind skipn]. rewrite broken_must_ok by lia.
    set (ws := t0 :: t1 :: t2 :: t3 :: r).
    rb; [apply (about_kept _ ws _ _ t0); [reflexivity | apply kind_kept]|]. intros m Hm.
    destruct (split c_slash t1) as [|p l] eqn:Hs; [destruct (split_nonempty c_slash t1 Hs)|].
    rb; [apply (about_kept _ ws _ (fun w => head_rule w (number u32_max)) t1); [reflexivity|];
         apply (head_kept _ _ _ p l); [exact Hs | apply number_kept]|].
    intros port Hp. change (p_u32 p = Ok port) in Hp.
    set (rest := [_; _; _]).
    assert (Big : first_broken (about ws 1 (fun w => must (exists p l n, fields 47 w (p :: l) /\ numeral u32_max p n /\ n <= 65535)
                           "media port token is too big") :: rest) e <->
      ((65535 <? port) = true /\ e = complains "media port token is too big") \/
      ((65535 <? port) = false /\ first_broken rest e)).
    { rewrite broken_cons. cbn [about must fst snd].
      assert (Q : (exists p l n, fields 47 t1 (p :: l) /\ numeral u32_max p n /\ n <= 65535) <-> (65535 <? port) = false).
      { split.
        - intros (p' & l' & n & F & Hn & L). apply fields_47 in F. rewrite Hs in F. inv F.
          apply p_u32_iff in Hn. rewrite Hp in Hn. inv Hn. lia.
        - intro L. exists p, l, port. split; [apply fields_47, Hs|]. split; [apply p_u32_iff, Hp | lia]. }
      split.
      - intros [(w & Hw & N & ->)|((w & Hw & P) & H)]; cbn [ws nth_error] in Hw; injection Hw as <-.
        + left. split; [|reflexivity]. destruct (65535 <? port) eqn:L; [reflexivity|]. exfalso. apply N, Q. reflexivity.
        + right. split; [apply Q, P | exact H].
      - intros [[L ->]|[L H]].
        + left. exists t1. split; [reflexivity|]. split; [|reflexivity]. intro K. apply Q in K. congruence.
        + right. split; [|exact H]. exists t1. split; [reflexivity|]. apply Q, L. }
    rewrite Big. clear Big. destruct (65535 <? port) eqn:L.
    { split; [intros [[_ ->]|[K _]]; [reflexivity | discriminate] | intro H; left; split; [reflexivity|]; injection H as <-; reflexivity]. }
    assert (Z : forall X : Prop, ((false = true /\ e = complains "media port token is too big") \/ (false = false /\ X)) <-> X)
      by (intro X; split; [intros [[K _]|[_ K]]; [discriminate | exact K] | auto]).
    rewrite Z. clear Z. unfold rest. clear rest.
    match goal with |- _ <-> ?R => change (first_broken
      (about ws 1 (fun w => field_rule w 1 (number u32_max)) ::
       [ about ws 2 (fun w => known (exists p, means_upper w (protocol_name p)));
       (True, fun e => exists kind pre f post, nth_error ws 0 = Some kind /\
       (means kind (media_name Audio) \/ means kind (media_name Video)) /\
       (t3 :: r) = pre ++ f :: post /\
       Forall (fun g => exists n, numeral u32_max g n /\ payload_listed n) pre /\
       (snd (number u32_max f) e \/
        (exists n, numeral u32_max f n /\ ~ payload_listed n) /\
        e = complains "format number in media line is out of range"))]) e <-> R) end.
    assert (Rest : forall pc,
      (first_broken
       [ about ws 2 (fun w => known (exists p, means_upper w (protocol_name p)));
       (True, fun e => exists kind pre f post, nth_error ws 0 = Some kind /\
       (means kind (media_name Audio) \/ means kind (media_name Video)) /\
       (t3 :: r) = pre ++ f :: post /\
       Forall (fun g => exists n, numeral u32_max g n /\ payload_listed n) pre /\
       (snd (number u32_max f) e \/
        (exists n, numeral u32_max f n /\ ~ payload_listed n) /\
        e = complains "format number in media line is out of range"))] e <->
       bind (parse_protocol_token t2) (fun proto =>
         bind (match m with
               | Audio | Video => l <- mapM (fun num => n <- p_u32 num ;;
                       if format_out_of_range n
                       then Err (gen "format number in media line is out of range")
                       else Ok n) (t3 :: r) ;; Ok (Integers l)
               | Application => Ok (Strings (t3 :: r)) end)
           (fun formats => Ok (TyMedia {| ml_media := m; ml_port := port; ml_port_count := pc;
                   ml_proto := proto; ml_formats := formats |}))) = Err e)).
    { intros pc. rb; [apply (about_kept _ ws _ _ t2); [reflexivity | apply protocol_kept]|]. intros proto _.
      rewrite broken_cons. cbn [fst snd].
      transitivity ((m = Audio \/ m = Video) /\ exists pre f post, (t3 :: r) = pre ++ f :: post /\
        Forall (fun g => exists n, numeral u32_max g n /\ payload_listed n) pre /\
        (snd (number u32_max f) e \/
        (exists n, numeral u32_max f n /\ ~ payload_listed n) /\
        e = complains "format number in media line is out of range")).
      - assert (U : forall m', means t0 (media_name m') <-> m' = m).
        { intro m'. rewrite <- media_token_iff, Hm. split; congruence. }
        split.
        + intros [(kind & pre & f & post & Hk & Hav & X)|[_ X]]; [|destruct (broken_nil _ X)].
          cbn [ws nth_error] in Hk. injection Hk as <-. rewrite !U in Hav. split; [destruct Hav; auto|]. eauto.
        + intros [Hav (pre & f & post & X)]. left. exists t0, pre, f, post. split; [reflexivity|].
          split; [rewrite !U; destruct Hav; auto | exact X].
      - rewrite (formats_why (t3 :: r) e He). destruct m.
        + destruct (mapM _ _) as [ns|x|]; cbn [bind]; split; try (intros [_ H]; discriminate); try discriminate.
          * intros [_ H]. congruence.
          * intro H. split; [auto|]. congruence.
        + destruct (mapM _ _) as [ns|x|]; cbn [bind]; split; try (intros [_ H]; discriminate); try discriminate.
          * intros [_ H]. congruence.
          * intro H. split; [auto|]. congruence.
        + cbn [bind]. split; [intros [[H|H] _]; discriminate | discriminate]. }
    destruct l as [|c l].
    - destruct (field_none t1 1 (number u32_max) e) as [N1 N2]; [rewrite Hs; reflexivity|].
      rewrite (about_skip ws 1 _ t1 _ _ eq_refl N1 N2). cbn [bind]. apply Rest.
    - rb; [apply (about_kept _ ws _ _ t1); [reflexivity|]; apply (field_kept _ _ _ _ c);
             [rewrite Hs; reflexivity | apply number_kept]|].
      intros pc _. apply Rest. }
  rewrite <- G. split.
  - intros (ws & W & H). apply words_sws in W. subst ws. exact H.
  - intro H. exists (split_whitespace v). split; [apply words_sws; reflexivity | exact H].
Qed.

(** ** Every error of the rules is an error *)
Definition hardly (r : rule) : Prop := forall e, snd r e -> hard e.
Lemma hard_broken : forall rs e, Forall hardly rs -> first_broken rs e -> hard e.
Proof. intros rs e F H. induction H; inversion F; subst; auto. Qed.
Lemma hard_generic : forall m, hard (EGeneric m). Proof. intros m k. discriminate. Qed.
Lemma hard_must : forall p t, hardly (must p t).
Proof. intros p t e [_ ->]. apply hard_generic. Qed.
Lemma hard_about : forall ws i r, (forall w, hardly (r w)) -> hardly (about ws i r).
Proof. intros ws i r H e (w & _ & X). exact (H w e X). Qed.
Lemma hard_number : forall m s, hardly (number m s).
Proof. intros m s e (k & _ & ->) x. discriminate. Qed.
Lemma hard_field : forall w i r, (forall w, hardly (r w)) -> hardly (field_rule w i r).
Proof. intros w i r H e (l & x & _ & _ & X). exact (H x e X). Qed.
Lemma hard_head : forall w r, (forall w, hardly (r w)) -> hardly (head_rule w r).
Proof. intros w r H e (l & x & _ & X). exact (H l e X). Qed.
Lemma hard_known : forall p, hardly (known p).
Proof. intros p e []. Qed.
Lemma hard_address : forall t s, hardly (address_of_kind t s).
Proof.
  intros t s e (k & _ & [(_ & m & _ & [[_ ->]|[_ ->]])|[(_ & n & _ & ->)|(_ & n & _ & ->)]]) x; discriminate.
Qed.
Ltac hardt := match goal with
  | |- Forall _ [] => constructor
  | |- Forall _ (_ :: _) => constructor; [hardt | hardt]
  | |- hardly (must _ _) => apply hard_must
  | |- hardly (network _) => apply hard_must
  | |- hardly (address_kind _) => apply hard_must
  | |- hardly (present _ _ _) => apply hard_must
  | |- hardly (number _ _) => apply hard_number
  | |- hardly (known _) => apply hard_known
  | |- hardly (address_of_kind _ _) => apply hard_address
  | |- hardly (about _ _ _) => apply hard_about; intro; hardt
  | |- hardly (field_rule _ _ _) => apply hard_field; intro; hardt
  | |- hardly (head_rule _ _) => apply hard_head; intro; hardt
  | _ => idtac end.
Lemma hard_connection : forall ws, Forall hardly (connection_rules ws).
Proof.
  intro ws. change (Forall hardly
  [ must (List.length ws = 3%nat) "connection attribute must have three tokens";
    about ws 0 network; about ws 1 address_kind;
    about ws 2 (fun w => field_rule w 2 (number u32_max)); about ws 2 (fun w => field_rule w 1 (number u8_max));
        about ws 2 (fun w => head_rule w (fun a => about ws 1 (fun ty => address_of_kind ty a)))]). hardt.
Qed.
Lemma hard_media : forall ws, Forall hardly (media_rules ws).
Proof.
  intro ws. unfold media_rules.
  constructor; [hardt|]. constructor; [hardt|].
  constructor; [change (hardly (about ws 1 (fun w => head_rule w (number u32_max)))); hardt|].
  constructor; [hardt|].
  constructor; [change (hardly (about ws 1 (fun w => field_rule w 1 (number u32_max)))); hardt|].
  constructor; [hardt|]. constructor; [|constructor].
  intros e (k & pre & f & post & _ & _ & _ & _ & [X|[_ ->]]); [exact (hard_number _ _ _ X) | apply hard_generic].
Qed.
Lemma hard_value : forall c v e, value_wrong c v e -> hard e.
Proof.
  intros c v e [[_ (t & fs & _ & _ & H)]|[[_ (ws & _ & H)]|[[_ (ws & _ & H)]|[[_ (ws & _ & H)]|[[_ (ws & _ & H)]|
    [[_ (t & _ & H)]|[(name & text & t & _ & _ & _ & ->)|[_ ->]]]]]]]]; try apply hard_generic;
    revert H; apply hard_broken.
  - unfold bandwidth_rules. hardt.
  - apply hard_connection.
  - apply hard_media.
  - unfold origin_rules. hardt.
  - unfold timing_rules. hardt.
  - unfold version_rules. hardt. intros x (n & d & _ & _ & _ & ->). apply hard_generic.
Qed.

(** ** Values *)
Lemma of_type_iff : forall c name d, of_string name = [d] -> ascii_lower d = d -> (of_type c name <-> ascii_lower c = d).
Proof.
  intros c name d H L. unfold of_type. rewrite H. split.
  - intros (x & Hx & Sx). injection Hx as <-. unfold same_letter in Sx. congruence.
  - intro K. exists d. split; [reflexivity|]. unfold same_letter. congruence.
Qed.
Ltac oft := match goal with |- of_type ?c ?n <-> _ => eapply of_type_iff; reflexivity end.
Lemma eqb_one : forall x y, str_eqb [x] [y] = (x =? y).
Proof.
  intros x y. destruct (str_eqb_spec [x] [y]) as [H|H]; destruct (N.eqb_spec x y) as [K|K]; congruence.
Qed.
Lemma fmt_end : forall m e a, (Err (genf m a) : res ierr sdp_type) = Err e <-> e = genf m a.
Proof. intros. split; congruence. Qed.
Ltac pick H := match goal with
  | |- ?k = ?k /\ _ => split; [reflexivity | exact H]
  | |- _ \/ _ => (left; pick H) || (right; pick H) end.
Ltac one_letter := match goal with |- context [N.eqb ?x ?y] =>
  destruct (N.eqb_spec x y) as [->|?]; [rewrite ?fmt_end; split;
    [let H := fresh in let H1 := fresh in let H2 := fresh in
     intro H; repeat match type of H with _ \/ _ => destruct H as [H|H] end;
     destruct H as [H1 H2]; first [discriminate H1 | exact H2 | exfalso; apply H1; cbn; auto 20]
    |let H := fresh in intro H; first [discriminate H | pick H]] |] end.
Lemma value_why : forall c v e, hard e -> ~ blank v -> ~ of_type c "a" ->
  (value_wrong c v e <-> parse_value [ascii_lower c] (trim v) v = Err e).
Proof.
  intros c v e He Nb Na.
  assert (T : forall name d, of_string name = [d] -> ascii_lower d = d -> (of_type c name <-> ascii_lower c = d))
    by (intros; apply of_type_iff; assumption).
  rewrite (T "a"%string 97 eq_refl eq_refl) in Na.
  assert (V : value_wrong c v e <->
    (ascii_lower c = 98 /\ parse_bandwidth (trim v) = Err e) \/
    (ascii_lower c = 99 /\ parse_connection (trim v) = Err e) \/
    (ascii_lower c = 109 /\ parse_media (trim v) = Err e) \/
    (ascii_lower c = 111 /\ parse_origin (trim v) = Err e) \/
    (ascii_lower c = 116 /\ parse_timing (trim v) = Err e) \/
    (ascii_lower c = 118 /\ parse_version (trim v) = Err e) \/
    ((ascii_lower c = 101 /\ e = genf "unsupported type email: {}" [trim v]) \/
     (ascii_lower c = 105 /\ e = genf "unsupported type information: {}" [trim v]) \/
     (ascii_lower c = 107 /\ e = genf "unsupported insecure key exchange: {}" [trim v]) \/
     (ascii_lower c = 112 /\ e = genf "unsupported type phone: {}" [trim v]) \/
     (ascii_lower c = 114 /\ e = genf "unsupported type repeat: {}" [trim v]) \/
     (ascii_lower c = 117 /\ e = genf "unsupported type uri: {}" [trim v]) \/
     (ascii_lower c = 122 /\ e = genf "unsupported type zone: {}" [trim v])) \/
    (~ In (ascii_lower c) [97; 98; 99; 101; 105; 107; 109; 111; 112; 114; 115; 116; 117; 118; 122] /\
     e = gen "unknown sdp type")).
  { unfold value_wrong. rewrite (T "b"%string 98 eq_refl eq_refl), (T "c"%string 99 eq_refl eq_refl),
      (T "m"%string 109 eq_refl eq_refl), (T "o"%string 111 eq_refl eq_refl), (T "t"%string 116 eq_refl eq_refl),
      (T "v"%string 118 eq_refl eq_refl).
    rewrite bandwidth_why, connection_why, media_why, origin_why, timing_why, version_why by assumption.
    assert (O : (exists name text t, In (name, text) obsolete /\ of_type c name /\ core v t /\ e = EGeneric (of_string text ++ t)) <->
     ((ascii_lower c = 101 /\ e = genf "unsupported type email: {}" [trim v]) \/
     (ascii_lower c = 105 /\ e = genf "unsupported type information: {}" [trim v]) \/
     (ascii_lower c = 107 /\ e = genf "unsupported insecure key exchange: {}" [trim v]) \/
     (ascii_lower c = 112 /\ e = genf "unsupported type phone: {}" [trim v]) \/
     (ascii_lower c = 114 /\ e = genf "unsupported type repeat: {}" [trim v]) \/
     (ascii_lower c = 117 /\ e = genf "unsupported type uri: {}" [trim v]) \/
     (ascii_lower c = 122 /\ e = genf "unsupported type zone: {}" [trim v]))).
    { assert (G : forall name text d g, of_string name = [d] -> ascii_lower d = d ->
        g = of_string text ++ trim v ++ [] ->
        ((of_type c name /\ exists t, core v t /\ e = EGeneric (of_string text ++ t)) <->
         (ascii_lower c = d /\ e = EGeneric g))).
      { intros name text d g H1 H2 ->. rewrite (T name d H1 H2), app_nil_r. setoid_rewrite core_trim. split.
        - intros [H (t & -> & ->)]. auto.
        - intros [H ->]. split; [exact H|]. exists (trim v). auto. }
      rewrite <- (G "e"%string "unsupported type email: "%string) by reflexivity.
      rewrite <- (G "i"%string "unsupported type information: "%string) by reflexivity.
      rewrite <- (G "k"%string "unsupported insecure key exchange: "%string) by reflexivity.
      rewrite <- (G "p"%string "unsupported type phone: "%string) by reflexivity.
      rewrite <- (G "r"%string "unsupported type repeat: "%string) by reflexivity.
      rewrite <- (G "u"%string "unsupported type uri: "%string) by reflexivity.
      rewrite <- (G "z"%string "unsupported type zone: "%string) by reflexivity.
      clear. unfold obsolete. split.
      - intros (name & text & t & I & H & H1 & H2). cbn [In] in I.
        repeat (destruct I as [I|I]; [injection I as <- <-; eauto 20|]). destruct I.
      - intros H. repeat (destruct H as [H|H]);
          destruct H as [H (t & H1 & H2)]; do 3 eexists; (split; [|split; [exact H | split; [exact H1 | exact H2]]]);
          cbn [In]; tauto. }
    rewrite O. clear O.
    assert (U : Forall (fun name => ~ of_type c name)
      ["a"; "b"; "c"; "e"; "i"; "k"; "m"; "o"; "p"; "r"; "s"; "t"; "u"; "v"; "z"]%string <->
      ~ In (ascii_lower c) [97; 98; 99; 101; 105; 107; 109; 111; 112; 114; 115; 116; 117; 118; 122]).
    { assert (Z : forall names ds, Forall2 (fun name d => of_string name = [d] /\ ascii_lower d = d) names ds ->
        (Forall (fun name => ~ of_type c name) names <-> ~ In (ascii_lower c) ds)).
      { clear. intros names ds F. induction F as [|name d names ds [H1 H2] F IH]; cbn [In].
        - split; [auto | constructor].
        - rewrite Forall_cons_iff, IH, (of_type_iff c name d H1 H2). split; [intros [A B] [K|K]; auto|].
          intro H. split; intro K; apply H; auto. }
      apply Z. repeat (constructor; [split; reflexivity|]). constructor. }
    rewrite U. clear U. unfold complains. reflexivity. }
  rewrite V. clear V T. generalize dependent (ascii_lower c). clear c. intros x Na.
  unfold parse_value. 
  change (lit "a") with [97]. change (lit "b") with [98]. change (lit "c") with [99]. change (lit "e") with [101].
  change (lit "i") with [105]. change (lit "k") with [107]. change (lit "m") with [109]. change (lit "o") with [111].
  change (lit "p") with [112]. change (lit "r") with [114]. change (lit "s") with [115]. change (lit "t") with [116].
  change (lit "u") with [117]. change (lit "v") with [118]. change (lit "z") with [122].
  rewrite !eqb_one. cbn [In].
  destruct (N.eqb_spec x 97) as [K|_]; [contradiction|].
  do 14 one_letter.
  split.
  - intro H. repeat match type of H with _ \/ _ => destruct H as [H|H] end; destruct H as [H1 H2];
      try contradiction. rewrite H2. reflexivity.
  - intro H. repeat right. split; [|congruence].
    intro I. repeat (destruct I as [I|I]; [symmetry in I; contradiction|]). exact I.
Qed.

(** ** Lines *)
Lemma blank_trim : forall v, blank v <-> is_empty (trim v) = true.
Proof.
  intro v. split.
  - intro B. assert (C : core v []) by (exists v, []; rewrite !app_nil_r; repeat split; [exact B | constructor | auto]).
    apply core_trim in C. rewrite <- C. reflexivity.
  - intro Em. apply is_empty_true in Em. destruct (trim_decompose v) as (x & y & Ex & Bx & By).
    rewrite Em in Ex. rewrite Ex. cbn [app]. unfold blank. apply Forall_app. split; apply blank_forallb; assumption.
Qed.
Lemma splitn2_eq : forall line, contains c_eq line = true -> exists t v, splitn 2 c_eq line = [t; v].
Proof.
  intros line H. cbn [splitn]. destruct (split_once c_eq line) as [[t v]|] eqn:S1; [eauto|].
  apply split_once_none_inv in S1. congruence.
Qed.
Lemma line_why : forall line n e, ~ attribute_line line ->
  (parse_sdp_line line n = Err (PLine e line n) <-> line_wrong line e).
Proof.
  intros line n e Na. unfold parse_sdp_line, line_wrong. cbv zeta.
  assert (F : forall m (x : string), m = of_string x ->
     ((Err (PLine (EGeneric m) line n) : res perr sdp_line) = Err (PLine e line n) <-> e = complains x))
    by (intros m x ->; unfold complains; split; [intro H; congruence | intros ->; reflexivity]).
  destruct (contains c_eq line) eqn:C; cbn [negb].
  2:{ rewrite (F _ "missing = character in line"%string eq_refl). apply contains_not_In in C. change c_eq with 61 in C.
      split; [auto|]. intros [[_ H]|(t & v & k & Ct & _)]; [exact H|]. apply cut_In in Ct. contradiction. }
  destruct (splitn2_eq line C) as (t & v & Sp). apply contains_In in C. change c_eq with 61 in C.
  assert (Z : forall X : Prop, X <->
    ((~ In 61 line /\ e = complains "missing = character in line") \/ X)) by (intro X; tauto).
  rewrite <- Z. clear Z. rewrite Sp. apply cut_splitn2 in Sp. change c_eq with 61 in Sp.
  assert (W : forall P : str -> str -> Prop, (exists t v k, cut 61 line t v /\ core t k /\ P k v) <-> P (trim t) v).
  { intro P. split.
    - intros (t' & v' & k & Ct & Ck & H). apply core_trim in Ck. subst k.
      apply cut_splitn2 in Ct. apply cut_splitn2 in Sp. rewrite Sp in Ct. inv Ct. exact H.
    - intro H. exists t, v, (trim t). split; [exact Sp|]. split; [apply core_trim; reflexivity | exact H]. }
  rewrite (W (fun k v =>
     (k = [] /\ e = complains "type is empty") \/
     ((exists c r, k = c :: r /\ (128 <= c \/ r <> [])) /\ e = complains "type too long") \/
     exists c, k = [c] /\ c < 128 /\
       ((blank v /\ ~ of_type c "s" /\ e = complains "value is empty") \/
        (~ blank v /\ value_wrong c v e)))). clear W.
  assert (U : forall c, 1 <= utf8_len c) by (intro c; unfold utf8_len; repeat (destruct (_ <? _); try lia)).
  assert (Bl : 1 <? byte_len (trim t) = true <-> exists c r, trim t = c :: r /\ (128 <= c \/ r <> [])).
  { split.
    - intro L. destruct (trim t) as [|c [|d r]].
      + discriminate.
      + exists c, []. split; [reflexivity|]. left. unfold byte_len in L. cbn [fold_right] in L.
        unfold utf8_len in L. destruct (N.ltb_spec c 128); lia.
      + exists c, (d :: r). split; [reflexivity|]. right. discriminate.
    - intros (c & r & -> & H). unfold byte_len. cbn [fold_right]. destruct H as [H|H].
      + assert (2 <= utf8_len c); [|lia]. unfold utf8_len. destruct (N.ltb_spec c 128); [lia|].
        destruct (c <? 2048); [lia|]. destruct (c <? 65536); lia.
      + destruct r as [|d r]; [congruence|]. cbn [fold_right]. pose proof (U c). pose proof (U d). lia. }
  destruct (1 <? byte_len (trim t)) eqn:B1.
  { destruct Bl as [Bl _]. destruct (Bl eq_refl) as (c & r & Et & Hl). rewrite Et.
    rewrite (F _ "type too long"%string eq_refl). split.
    - intro H. right. left. split; [eauto | exact H].
    - intros [[K _]|[[_ H]|(c' & K & L & _)]]; [discriminate | exact H |]. inv K. destruct Hl; [lia | congruence]. }
  destruct (is_empty (trim t)) eqn:Em.
  { apply is_empty_true in Em. rewrite Em. rewrite (F _ "type is empty"%string eq_refl). split.
    - intro H. auto.
    - intros [[_ H]|[[(c & r & K & _) _]|(c & K & _)]]; [exact H | discriminate | discriminate]. }
  destruct (byte_one (trim t)) as (c & Et & Lc); [intro K; rewrite K in Em; discriminate | lia |].
  rewrite Et. rewrite lower_one by exact Lc.
  assert (Z : forall P : N -> Prop, P c <->
     (([c] = [] /\ e = complains "type is empty") \/
     ((exists d r, [c] = d :: r /\ (128 <= d \/ r <> [])) /\ e = complains "type too long") \/
     exists d, [c] = [d] /\ d < 128 /\ P d)).
  { intro P. split.
    - intro H. right. right. exists c. auto.
    - intros [[K _]|[[(d & r & K & H) _]|(d & K & _ & H)]]; [discriminate | | inv K; exact H].
      exfalso. inv K. destruct H; [lia | congruence]. }
  rewrite <- (Z (fun c => (blank v /\ ~ of_type c "s" /\ e = complains "value is empty") \/ (~ blank v /\ value_wrong c v e))).
  clear Z. change (lit "s") with [115]. rewrite eqb_one.
  pose proof (of_type_iff c "s" 115 eq_refl eq_refl) as Ts.
  pose proof (blank_trim v) as Bv.
  destruct (is_empty (trim v)) eqn:Ev; cbn [andb].
  - assert (B : blank v) by (apply Bv; reflexivity). destruct (N.eqb_spec (ascii_lower c) 115) as [Es|Es]; cbn [negb].
    + rewrite Es. change (parse_value [115] (trim v) v) with (Ok (E:=ierr) (TySession v)). split; [discriminate|].
      intros [(_ & H & _)|[H _]]; [exfalso; apply H, Ts, Es | contradiction].
    + rewrite (F _ "value is empty"%string eq_refl). split.
      * intro H. left. split; [exact B|]. split; [|exact H]. intro K. apply Es, Ts, K.
      * intros [(_ & _ & H)|[H _]]; [exact H | contradiction].
  - assert (Nb : ~ blank v) by (intro K; apply Bv in K; discriminate).
    assert (Nt : ~ of_type c "a").
    { intro K. apply Na. destruct (trim_decompose t) as (w1 & w2 & Ht & B2 & B3).
      exists w1, c, w2, v. rewrite Et in Ht. destruct Sp as [Sp _]. rewrite Ht in Sp.
      split; [rewrite Sp, <- !app_assoc; reflexivity|]. split; [apply blank_forallb, B2|].
      split; [apply blank_forallb, B3|]. auto. }
    transitivity (value_wrong c v e); [|tauto]. split.
    + intro H. assert (P : hard e /\ parse_value [ascii_lower c] (trim v) v = Err e).
      { destruct (parse_value _ _ _) as [x|x|]; try discriminate. unfold line_error in H.
        split; [intros m ->; destruct x; congruence | destruct x; congruence]. }
      destruct P as [He P]. apply value_why; assumption.
    + intro H. pose proof (hard_value _ _ _ H) as He. apply value_why in H; try assumption. rewrite H.
      unfold line_error. destruct e; try reflexivity. exfalso. eapply He. reflexivity.
Qed.

(** ** Documents *)
Lemma scan_prefix : forall a b n L H W, Scan n (a ++ b) L H W -> exists L1 H1 W1, Scan n a L1 H1 W1.
Proof.
  induction a as [|x a IH]; intros b n L H W K; [exists [], [], []; constructor|].
  cbn [app] in K. inversion K; subst;
    match goal with Q : Scan (S n) _ _ _ _ |- _ => destruct (IH _ _ _ _ _ Q) as (L1 & H1 & W1 & Q1) end.
  - exists L1, H1, W1. apply Scan_blank; assumption.
  - exists (l :: L1), H1, W1. apply Scan_ok; assumption.
  - exists L1, H1, (PUnsupported e x n :: W1). apply Scan_warn; assumption.
  - exists L1, (PLine e x n :: H1), W1. apply Scan_hard; assumption.
Qed.
Lemma scan_app : forall a b n L1 H1 W1 L2 H2 W2, Scan n a L1 H1 W1 -> Scan (n + List.length a) b L2 H2 W2 ->
  Scan n (a ++ b) (L1 ++ L2) (H1 ++ H2) (W1 ++ W2).
Proof.
  intros a b n L1 H1 W1 L2 H2 W2 S1. induction S1; intro S2; cbn [app List.length] in *.
  - rewrite Nat.add_0_r in S2. exact S2.
  - apply Scan_blank; [assumption|]. apply IHS1. rewrite Nat.add_succ_r in S2. exact S2.
  - apply Scan_ok; [assumption|assumption|]. apply IHS1. rewrite Nat.add_succ_r in S2. exact S2.
  - apply Scan_warn; [assumption|assumption|]. apply IHS1. rewrite Nat.add_succ_r in S2. exact S2.
  - apply Scan_hard; [assumption|assumption|]. apply IHS1. rewrite Nat.add_succ_r in S2. exact S2.
Qed.
Lemma document_why : ext_total E -> forall d pre line post ts us e, doc_ok d ->
  (Z.of_nat (List.length (doc_text d)) < 2147483648)%Z -> 51 <= byte_len (doc_text d) ->
  doc_lines d = pre ++ line :: post -> ~ blank line -> ~ attribute_line line -> line_wrong line e ->
  lines_read (S (List.length pre)) post ts us ->
  parse_sdp (doc_text d) false = Err (PLine e line (List.length pre)).
Proof.
  intros T d pre line post ts us e D Sh B Ed Nb Na Wr R.
  destruct (scan_total T (doc_text d) Sh B) as (L & H & W & S0). rewrite (lines_doc d D), Ed in S0.
  destruct (scan_prefix _ _ _ _ _ _ S0) as (L1 & H1 & W1 & S1).
  assert (F : Forall (fun x => short (List.length x)) post).
  { assert (F : Forall (fun x => short (List.length x)) (doc_lines d)).
    { pose proof (lines_doc d D) as Ld. rewrite <- Ld. apply Forall_forall. intros x Hx.
      apply lines_length in Hx. unfold short in *. lia. }
    rewrite Ed in F. apply Forall_app in F. destruct F as [_ F]. inversion F; assumption. }
  destruct (read_reads _ _ _ _ R F) as (ws & Rd & _). apply Reads_Scan in Rd. destruct Rd as (L2 & S2 & _).
  apply (line_why line (List.length pre) e Na) in Wr.
  pose proof (Scan_hard (List.length pre) line post L2 [] ws e Nb Wr S2) as S3.
  pose proof (scan_app pre (line :: post) 0 L1 H1 W1 L2 [PLine e line (List.length pre)] ws S1 S3) as S4.
  rewrite <- Ed, <- (lines_doc d D) in S4. rewrite (parse_scan _ _ _ _ _ B S4). unfold finish.
  assert (LE : last_error (H1 ++ [PLine e line (List.length pre)]) = Some (PLine e line (List.length pre)))
    by (unfold last_error; rewrite rev_unit; reflexivity).
  rewrite LE. reflexivity.
Qed.
End WithExt.

(** ** The texts of the errors *)
Definition says_one (e : ierr) : Prop := forall m, e = EGeneric m ->
  In m (map of_string line_messages) \/ exists p t, In p line_prefixes /\ m = of_string p ++ t.
Definition saying (r : rule) : Prop := forall e, snd r e -> says_one e.
Lemma say_broken : forall rs e, Forall saying rs -> first_broken rs e -> says_one e.
Proof. intros rs e F H. induction H; inversion F; subst; auto. Qed.
Lemma complains_one : forall t, In t line_messages -> says_one (complains t).
Proof. intros t I m H. injection H as <-. left. apply in_map, I. Qed.
Lemma say_must : forall p t, In t line_messages -> saying (must p t).
Proof. intros p t I e [_ ->]. apply complains_one, I. Qed.
Lemma say_about : forall ws i r, (forall w, saying (r w)) -> saying (about ws i r).
Proof. intros ws i r H e (w & _ & X). exact (H w e X). Qed.
Lemma say_number : forall m s, saying (number m s).
Proof. intros m s e (k & _ & ->) x. discriminate. Qed.
Lemma say_field : forall w i r, (forall w, saying (r w)) -> saying (field_rule w i r).
Proof. intros w i r H e (l & x & _ & _ & X). exact (H x e X). Qed.
Lemma say_head : forall w r, (forall w, saying (r w)) -> saying (head_rule w r).
Proof. intros w r H e (l & x & _ & X). exact (H l e X). Qed.
Section WithExt2.
Context {E : Ext}.
Lemma say_known : forall p, saying (known p).
Proof. intros p e []. Qed.
Lemma say_address : forall t s, saying (address_of_kind t s).
Proof.
  intros t s e (k & _ & [(_ & m & _ & [[_ ->]|[_ ->]])|[(_ & n & _ & ->)|(_ & n & _ & ->)]]) x; discriminate.
Qed.
Ltac inlist := match goal with |- In _ ?l => let l' := eval hnf in l in change (In _ l'); cbn [In]; auto 40 end.
Ltac say := match goal with
  | |- Forall _ [] => constructor
  | |- Forall _ (_ :: _) => constructor; [say | say]
  | |- saying (must _ _) => apply say_must; unfold line_messages; cbn [In]; auto 40
  | |- saying (network _) => apply say_must; unfold line_messages; cbn [In]; auto 40
  | |- saying (address_kind _) => apply say_must; unfold line_messages; cbn [In]; auto 40
  | |- saying (present _ _ _) => apply say_must; unfold line_messages; cbn [In]; auto 40
  | |- saying (number _ _) => apply say_number
  | |- saying (known _) => apply say_known
  | |- saying (address_of_kind _ _) => apply say_address
  | |- saying (about _ _ _) => apply say_about; intro; say
  | |- saying (field_rule _ _ _) => apply say_field; intro; say
  | |- saying (head_rule _ _) => apply say_head; intro; say
  | _ => idtac end.
Lemma say_value : forall c v e, value_wrong c v e -> says_one e.
Proof.
  intros c v e [[_ (t & fs & _ & _ & H)]|[[_ (ws & _ & H)]|[[_ (ws & _ & H)]|[[_ (ws & _ & H)]|[[_ (ws & _ & H)]|
    [[_ (t & _ & H)]|[(name & text & t & I & _ & _ & ->)|[_ ->]]]]]]]];
    try (revert H; apply say_broken).
  - unfold bandwidth_rules. say.
  - change (Forall saying
    [ must (List.length ws = 3%nat) "connection attribute must have three tokens";
      about ws 0 network; about ws 1 address_kind;
      about ws 2 (fun w => field_rule w 2 (number u32_max)); about ws 2 (fun w => field_rule w 1 (number u8_max));
      about ws 2 (fun w => head_rule w (fun a => about ws 1 (fun ty => address_of_kind ty a)))]). say.
  - unfold media_rules.
    constructor; [say|]. constructor; [say|].
    constructor; [change (saying (about ws 1 (fun w => head_rule w (number u32_max)))); say|].
    constructor; [say|].
    constructor; [change (saying (about ws 1 (fun w => field_rule w 1 (number u32_max)))); say|].
    constructor; [say|]. constructor; [|constructor].
    intros e' (k & pre & f & post & _ & _ & _ & _ & [X|[_ ->]]); [exact (say_number _ _ _ X)|].
    apply complains_one. unfold line_messages. cbn [In]. auto 40.
  - unfold origin_rules. say.
  - unfold timing_rules. say.
  - unfold version_rules. say. intros x (n & d & _ & _ & _ & ->) m H. injection H as <-. right.
    exists "version type contains unsupported value "%string, d. split; [|reflexivity].
    unfold line_prefixes. cbn [In]. auto 20.
  - intros m H. injection H as <-. right. exists text, t. split; [|reflexivity].
    unfold obsolete in I. unfold line_prefixes. cbn [In] in *.
    repeat (destruct I as [I|I]; [injection I as <- <-; auto 20|]). destruct I.
  - apply complains_one. unfold line_messages. cbn [In]. auto 40.
Qed.
Lemma line_texts : forall line m, line_wrong line (EGeneric m) ->
  In m (map of_string line_messages) \/ exists p t, In p line_prefixes /\ m = of_string p ++ t.
Proof.
  intros line m H. assert (Q : says_one (EGeneric m)); [|apply Q; reflexivity].
  destruct H as [[_ H]|(t & v & k & _ & _ & [[_ H]|[[_ H]|(c & _ & _ & [(_ & _ & H)|[_ H]])]])].
  1,2,3,4: rewrite H; apply complains_one; unfold line_messages; cbn [In]; auto 40.
  exact (say_value _ _ _ H).
Qed.
End WithExt2.

(** * Why attributes are refused: values (proofs for C69) *)
From Coq Require Import List NArith ZArith Bool Ascii String Lia.
From Coq Require Import ZifyBool ZifyNat ZifyN.
From Verif Require Import Str Num Net Types Ext Show Address AttrParse Media Session.
From Verif Require Import StrLemmas NumLemmas NetLemmas.
From Verif Require Import SpecApi SpecDoc SpecVal SpecUnsup SpecWarn SpecWhy SpecCause PPanic PDoc PDoc2 PDoc3 PDoc4.
From Verif Require Import PVal PVal2 PVal3 PVal4 PVal5 PVal6 PVal7 PVal8 PVal9 PWarn PWhy PCause.
Import ListNotations.
Open Scope N_scope.
Open Scope list_scope.

(** ** Hexadecimal numbers *)
Notation hexes := (fold_left (fun a d : N => 16 * a + d)).
Lemma hex_err : forall max s acc k, acc <= max ->
  (parse_digits 16 max acc s = Err k <->
   exists p ds c rest, s = p ++ c :: rest /\ Forall2 hex_digit p ds /\ hexes ds acc <= max /\
     (((forall d, ~ hex_digit c d) /\ k = IntInvalidDigit) \/
      (exists d, hex_digit c d /\ max < hexes (ds ++ [d]) acc /\ k = IntPosOverflow))).
Proof.
  assert (Mono : forall p acc, acc <= hexes p acc).
  { induction p as [|c p IH]; intro acc; cbn [fold_left]; [lia|]. specialize (IH (16 * acc + c)). lia. }
  intros max s. induction s as [|c s IH]; intros acc k L; cbn [parse_digits].
  - split; [discriminate|]. intros (p & ds & c & rest & H & _). destruct p; discriminate.
  - destruct (to_digit 16 c) as [d|] eqn:D.
    + assert (U : forall x, hex_digit c x -> x = d) by (intros x X; apply to_digit_hex in X; congruence).
      apply to_digit_hex in D.
      destruct (N.ltb_spec max (acc * 16 + d)) as [O|O].
      * split.
        -- intro H. inv H. exists [], [], c, s. split; [reflexivity|]. split; [constructor|].
           split; [exact L|]. right. exists d. split; [exact D|]. split; [cbn [app fold_left]; lia | reflexivity].
        -- intros (p & ds & c' & rest & H & F & B & K). destruct p as [|x p].
           ++ cbn [app] in H. injection H as -> ->. destruct K as [[K _]|(_ & _ & _ & ->)]; [destruct (K _ D) | reflexivity].
           ++ cbn [app] in H. injection H as -> ->. exfalso. inversion F as [|? y ? ds' X F']; subst.
              apply U in X. subst y. cbn [fold_left] in B. pose proof (Mono ds' (16 * acc + d)). lia.
      * rewrite IH by exact O. split.
        -- intros (p & ds & c' & rest & -> & F & B & K). exists (c :: p), (d :: ds), c', rest. split; [reflexivity|].
           split; [constructor; assumption|]. cbn [app fold_left].
           replace (16 * acc + d) with (acc * 16 + d) by lia. auto.
        -- intros (p & ds & c' & rest & H & F & B & K). destruct p as [|x p].
           ++ cbn [app] in H. injection H as <- <-. exfalso. inversion F; subst. cbn [app fold_left] in K.
              destruct K as [[K _]|(x & X & K & _)]; [exact (K _ D) | apply U in X; subst; lia].
           ++ cbn [app] in H. injection H as <- ->. inversion F as [|? y ? ds' X F']; subst. apply U in X. subst y.
              exists p, ds', c', rest. split; [reflexivity|].
              split; [assumption|]. cbn [app fold_left] in B, K.
              replace (16 * acc + d) with (acc * 16 + d) in * by lia. auto.
    + assert (Nd : forall d, ~ hex_digit c d).
      { intros d K. apply to_digit_hex in K. congruence. }
      split.
      * intro H. inv H. exists [], [], c, s. split; [reflexivity|]. split; [constructor|]. split; [exact L|]. left. auto.
      * intros (p & ds & c' & rest & H & F & B & K). destruct p as [|x p].
        -- cbn [app] in H. injection H as -> ->. destruct K as [[_ ->]|(d & K & _)]; [reflexivity | destruct (Nd _ K)].
        -- cbn [app] in H. injection H as -> ->. inversion F as [|? y ? ds' X F']; subst. destruct (Nd _ X).
Qed.
Lemma wrong_hex_iff : forall max s k, wrong_hex max s k <-> parse_uint 16 max s = Err k.
Proof.
  intros max s k. unfold wrong_hex, parse_uint, hex_value.
  assert (Q : forall b, (exists p ds c rest, b = p ++ c :: rest /\ Forall2 hex_digit p ds /\
     hexes ds 0 <= max /\ (((forall d, ~ hex_digit c d) /\ k = IntInvalidDigit) \/
      (exists d, hex_digit c d /\ max < hexes (ds ++ [d]) 0 /\ k = IntPosOverflow))) <-> parse_digits 16 max 0 b = Err k).
  { intro b. rewrite hex_err by lia. reflexivity. }
  assert (Plus : forall d, ~ hex_digit 43 d) by (intros d H; unfold hex_digit in H; lia).
  destruct s as [|c0 s].
  - split.
    + intros [[_ ->]|(sign & p & ds & c & rest & H & _)]; [reflexivity|].
      destruct sign, p; discriminate.
    + intro H. inv H. left. auto.
  - assert (G : (exists sign p ds c rest, c0 :: s = sign ++ p ++ c :: rest /\ (sign = [] \/ sign = [43]) /\
        Forall2 hex_digit p ds /\ hexes ds 0 <= max /\
        (((forall d, ~ hex_digit c d) /\ ~ (sign = [] /\ p = [] /\ c = 43 /\ rest <> []) /\ k = IntInvalidDigit) \/
         (exists d, hex_digit c d /\ max < hexes (ds ++ [d]) 0 /\ k = IntPosOverflow))) <->
      (if (c0 =? 43) && negb (is_empty s) then parse_digits 16 max 0 s else parse_digits 16 max 0 (c0 :: s)) = Err k).
    { destruct ((c0 =? 43) && negb (is_empty s)) eqn:B.
      - assert (c0 = 43) by lia. subst c0. assert (s <> []) by (destruct s; [discriminate | discriminate]).
        rewrite <- Q. split.
        + intros (sign & p & ds & c & rest & H' & [->| ->] & F & L & K).
          * cbn [app] in H'. destruct p as [|x p].
            -- cbn [app] in H'. injection H' as <- <-. exfalso. destruct K as [[_ [K _]]|(d & K & _)].
               ++ apply K. auto.
               ++ exact (Plus _ K).
            -- cbn [app] in H'. injection H' as <- _. inversion F as [|? ? ? ? D _]; subst. destruct (Plus _ D).
          * cbn [app] in H'. injection H' as ->. exists p, ds, c, rest. split; [reflexivity|]. split; [exact F|].
            split; [exact L|]. destruct K as [[K1 [_ K2]]|K]; auto.
        + intros (p & ds & c & rest & -> & F & L & K). exists [43], p, ds, c, rest. split; [reflexivity|].
          split; [auto|]. split; [exact F|]. split; [exact L|]. destruct K as [[K1 K2]|K]; [left|right; exact K].
          split; [exact K1|]. split; [intros [X _]; discriminate | exact K2].
      - rewrite <- Q. split.
        + intros (sign & p & ds & c & rest & H' & [->| ->] & F & L & K).
          * exists p, ds, c, rest. split; [exact H'|]. split; [exact F|]. split; [exact L|].
            destruct K as [[K1 [_ K2]]|K]; auto.
          * exfalso. cbn [app] in H'. injection H' as -> ->.
            destruct (p ++ c :: rest) eqn:X; [destruct p; discriminate | discriminate B].
        + intros (p & ds & c & rest & H' & F & L & K). exists [], p, ds, c, rest. split; [exact H'|]. split; [auto|].
          split; [exact F|]. split; [exact L|]. destruct K as [[K1 K2]|K]; [left|right; exact K].
          split; [exact K1|]. split; [|exact K2]. intros (_ & -> & -> & N). cbn [app] in H'. injection H' as -> ->.
          destruct rest; [congruence | discriminate B]. }
    rewrite G. clear G.
    assert (Z : forall X : Prop, ((c0 :: s = [] /\ k = IntEmpty) \/ X) <-> X).
    { intro X. split; [intros [[H _]|H]; [discriminate | exact H] | auto]. }
    rewrite Z. destruct s as [|c1 s].
    + cbn [is_empty negb]. rewrite andb_false_r. unfold c_plus, c_minus.
      destruct (N.eqb_spec c0 43) as [->|N1]; [reflexivity|].
      destruct (N.eqb_spec c0 45) as [->|N2]; [reflexivity|]. reflexivity.
    + cbn [is_empty negb]. rewrite andb_true_r. unfold c_plus. destruct (c0 =? 43); reflexivity.
Qed.
Lemma hex_kept : forall max s, kept (res_map_err EInteger (parse_uint 16 max s)) (hex_number max s).
Proof.
  intros max s. unfold hex_number. split; cbn [fst snd].
  - setoid_rewrite hex_numeral_iff. destruct (parse_uint 16 max s) as [a|x|]; cbn [res_map_err].
    + split; intros (n & H); exists n; congruence.
    + split; intros (n & H); discriminate.
    + split; intros (n & H); discriminate.
  - intros e _. setoid_rewrite wrong_hex_iff. destruct (parse_uint 16 max s) as [a|x|]; cbn [res_map_err].
    + split; [intros (k & H & _); discriminate | discriminate].
    + split; [intros (k & H & ->); congruence | intro H; exists x; split; [reflexivity | congruence]].
    + split; [intros (k & H & _); discriminate | discriminate].
Qed.

(** ** Numbers with bounds *)
Lemma number_is : forall max s n, res_map_err EInteger (parse_uint 10 max s) = Ok n <-> numeral max s n.
Proof.
  intros max s n. rewrite numeral_iff. destruct (parse_uint 10 max s); cbn [res_map_err]; split; congruence.
Qed.
Lemma hex_is : forall max s n, res_map_err EInteger (parse_uint 16 max s) = Ok n <-> hex_numeral max s n.
Proof.
  intros max s n. rewrite hex_numeral_iff. destruct (parse_uint 16 max s); cbn [res_map_err]; split; congruence.
Qed.
Lemma k_small : forall {A} max bound t s m (f : N -> res ierr A) cs, m = of_string t ->
  (forall n, numeral max s n -> n <= bound -> kept (f n) (all cs)) ->
  kept (n <- res_map_err EInteger (parse_uint 10 max s) ;; if bound <? n then Err (EGeneric m) else f n)
       (all (small_number max bound t s :: cs)).
Proof.
  intros A max bound t s m f cs M K. unfold small_number. apply k_flat. cbn [app].
  apply k_bind; [apply number_kept|]. intros n Hn. apply number_is in Hn.
  assert (U : forall x, numeral max s x -> x = n).
  { intros x X. apply number_is in X, Hn. congruence. }
  apply k_must; [|exact M|].
  - rewrite N.ltb_ge. split; [eauto|]. intros (x & X & L). apply U in X. subst x. exact L.
  - intros (x & X & L). apply U in X. subst x. apply K; assumption.
Qed.
Lemma k_up_to : forall {A} max bound t s m (f : N -> res ierr A) cs, m = of_string t ->
  (forall n, kept (f n) (all cs)) ->
  kept (n <- res_map_err EInteger (parse_uint 10 max s) ;; x <- up_to bound (EGeneric m) n ;; f x)
       (all (small_number max bound t s :: cs)).
Proof.
  intros A max bound t s m f cs M K.
  assert (X := k_small max bound t s m f cs M (fun n _ _ => K n)).
  destruct (res_map_err EInteger (parse_uint 10 max s)) as [n| |]; cbn [bind] in *; try exact X.
  unfold up_to. destruct (N.leb_spec n bound) as [L|L], (N.ltb_spec bound n) as [G|G]; cbn [bind]; try lia; exact X.
Qed.

Section WithExt.
Context {E : Ext}.

Lemma address_kept : forall s, kept (address_from_str s) (address_text s).
Proof.
  intro s. unfold address_text. split; cbn [fst snd].
  - split; intros (a & H); exists a; apply address_iff, H.
  - intros e _. apply wrong_address_iff.
Qed.
Lemma direction_word_kept : forall s, kept (parse_single_direction s) (direction_word s).
Proof.
  intro s. apply k_single. unfold direction_word. destruct (parse_single_direction s) as [d|x|] eqn:P.
  - apply k_say_ok; [exists d; apply single_direction_iff, P | apply k_nil].
  - assert (Q : x = EGeneric (lit "Unknown direction description found: '" ++ s ++ lit "'")).
    { revert P. unfold parse_single_direction. destruct (assoc_str _ _); intro H; [discriminate|].
      change (Err (EGeneric (lit "Unknown direction description found: '" ++ s ++ lit "'")) = @Err ierr single_direction x) in H.
      congruence. }
    subst x. apply k_say_err; [|reflexivity]. intros (d & H). apply single_direction_iff in H. congruence.
  - exfalso. revert P. unfold parse_single_direction. destruct (assoc_str _ _); discriminate.
Qed.
Lemma payload_kept : forall s, kept (parse_payload_type s) (payload s).
Proof.
  intro s. unfold payload. split; cbn [fst snd].
  - split; intros (a & H); exists a; apply payload_iff, H.
  - intros e He. unfold parse_payload_type, is_word. destruct (str_eqb_spec s (lit "*")) as [Q|Q].
    + split; [intros [X _]; contradiction | discriminate].
    + destruct (number_kept u8_max s) as [_ K]. rewrite (K e He). unfold p_u8, parse_u8.
      destruct (res_map_err EInteger (parse_uint 10 u8_max s)); cbn [bind]; split; try discriminate; intuition congruence.
Qed.
Lemma family_kept : forall s, kept (addr_type_from_str s) (family_word s).
Proof.
  intro s. unfold family_word. split; cbn [fst snd].
  - split; intros (a & H); exists a; apply addr_type_iff, H.
  - intros e _. assert (I := addr_type_iff s). unfold addr_type_from_str in *.
    destruct (assoc_str _ _) as [t|].
    + split; [intros [X _]; destruct X; exists t; apply I; reflexivity | discriminate].
    + split; [intros [_ ->]; reflexivity|]. intro H. split; [|congruence].
      intros (t & T). apply I in T. discriminate.
Qed.
Lemma float32_kept : forall s, kept (p_f32 s) (float32 s).
Proof.
  intro s. unfold float32, p_f32. split; cbn [fst snd].
  - destruct (parse_f32 s); cbn [res_map_err]; split; intros (x & H); eauto; discriminate.
  - intros e _. destruct (parse_f32 s) as [a|x|]; cbn [res_map_err].
    + split; [intros (m & H & _); discriminate | discriminate].
    + split; [intros (m & H & ->); congruence | intro H; exists x; split; congruence].
    + split; [intros (m & H & _); discriminate | discriminate].
Qed.
Lemma float64_kept : forall s, kept (p_f64 s) (float64 s).
Proof.
  intro s. unfold float64, p_f64. split; cbn [fst snd].
  - destruct (parse_f64 s); cbn [res_map_err]; split; intros (x & H); eauto; discriminate.
  - intros e _. destruct (parse_f64 s) as [a|x|]; cbn [res_map_err].
    + split; [intros (m & H & _); discriminate | discriminate].
    + split; [intros (m & H & ->); congruence | intro H; exists x; split; congruence].
    + split; [intros (m & H & _); discriminate | discriminate].
Qed.
Lemma quotes_debug : forall s q, quotes s q <-> q = debug_str s.
Proof.
  intros s q. unfold quotes. assert (D : ascii_text s \/ ~ ascii_text s).
  { unfold ascii_text. destruct (Forall_dec (fun c => c < 128) (fun c => Bool.reflect_dec _ _ (N.ltb_spec0 c 128)) s); auto. }
  split.
  - intros [[A H]|[_ H]]; [apply (quoted_iff _ _ A), H | exact H].
  - intro H. destruct D as [D|D]; [left | right; auto]. split; [exact D | apply (quoted_iff _ _ D), H].
Qed.
End WithExt.

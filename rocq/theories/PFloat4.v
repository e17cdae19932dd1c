(** * Lemmas for C60: f32 and f64, and the attributes that use them *)
From Coq Require Import List NArith ZArith Bool Ascii String Lia.
From Coq Require Import ZifyBool ZifyNat ZifyN.
From Verif Require Import Str Num Net Types Ext Show Address AttrParse Media Session Ext0 StrLemmas NumLemmas PExt0
  SpecVal PVal2 PVal3 PVal9 SpecFloat PFloat PFloat2 PFloat3.
Import ListNotations.
Open Scope N_scope.
Open Scope list_scope.

Lemma big32 : magnitude 23 (inf 23 8) <= 10 ^ 401 * 2 ^ unit_exp 23 8. Proof. apply N.leb_le. vm_compute. reflexivity. Qed.
Lemma big64 : magnitude 52 (inf 52 11) <= 10 ^ 401 * 2 ^ unit_exp 52 11. Proof. apply N.leb_le. vm_compute. reflexivity. Qed.
Lemma small32 : 2 * 2 ^ unit_exp 23 8 < 10 ^ 1100. Proof. apply N.ltb_lt. vm_compute. reflexivity. Qed.
Lemma small64 : 2 * 2 ^ unit_exp 52 11 < 10 ^ 1100. Proof. apply N.ltb_lt. vm_compute. reflexivity. Qed.
Lemma digits32 : 2 ^ (23 + 1) < 10 ^ 16. Proof. apply N.ltb_lt. vm_compute. reflexivity. Qed.
Lemma digits64 : 2 ^ (52 + 1) < 10 ^ 16. Proof. apply N.ltb_lt. vm_compute. reflexivity. Qed.
Lemma le1 : forall n, (1 <=? n) = true -> 1 <= n. Proof. intros n H. apply N.leb_le. exact H. Qed.
Lemma le2 : forall n, (2 <=? n) = true -> 2 <= n. Proof. intros n H. apply N.leb_le. exact H. Qed.

Lemma read32 : forall s x, parse_float 23 8 s = Ok x <-> float_text 23 8 s x.
Proof. exact (float_iff 23 8 (le1 23 eq_refl) (le2 8 eq_refl) big32 small32). Qed.
Lemma read64 : forall s x, parse_float 52 11 s = Ok x <-> float_text 52 11 s x.
Proof. exact (float_iff 52 11 (le1 52 eq_refl) (le2 11 eq_refl) big64 small64). Qed.
Lemma err32 : forall s e, parse_float 23 8 s = Err e <-> (forall x, ~ float_text 23 8 s x) /\ (s = [] /\ e = FloatEmpty \/ s <> [] /\ e = FloatInvalid).
Proof. exact (float_err_iff 23 8 (le1 23 eq_refl) (le2 8 eq_refl) big32 small32). Qed.
Lemma err64 : forall s e, parse_float 52 11 s = Err e <-> (forall x, ~ float_text 52 11 s x) /\ (s = [] /\ e = FloatEmpty \/ s <> [] /\ e = FloatInvalid).
Proof. exact (float_err_iff 52 11 (le1 52 eq_refl) (le2 11 eq_refl) big64 small64). Qed.
Lemma show32 : forall x s, x < 2 ^ 32 -> (show_float 23 8 x = s <-> printed_float 23 8 x s).
Proof. exact (show_iff 23 8 (le1 23 eq_refl) (le2 8 eq_refl) big32 small32 digits32). Qed.
Lemma show64 : forall x s, x < 2 ^ 64 -> (show_float 52 11 x = s <-> printed_float 52 11 x s).
Proof. exact (show_iff 52 11 (le1 52 eq_refl) (le2 11 eq_refl) big64 small64 digits64). Qed.
Lemma near_one : forall p w num den x y, In (p, w) [(23, 8); (52, 11)] -> 0 < den -> nearest p w num den x -> nearest p w num den y -> x = y.
Proof.
  intros p w num den x y [H|[H|[]]]; injection H as <- <-; [exact (nearest_unique 23 8 (le1 23 eq_refl) (le2 8 eq_refl) num den x y) | exact (nearest_unique 52 11 (le1 52 eq_refl) (le2 11 eq_refl) num den x y)].
Qed.
Lemma near_some : forall p w num den, In (p, w) [(23, 8); (52, 11)] -> 0 < den -> exists x, nearest p w num den x.
Proof.
  intros p w num den [H|[H|[]]] D; injection H as <- <-; eexists; [exact (round_nearest 23 8 (le1 23 eq_refl) (le2 8 eq_refl) num den D) | exact (round_nearest 52 11 (le1 52 eq_refl) (le2 11 eq_refl) num den D)].
Qed.

Lemma ext0_std : std_floats Ext0.
Proof.
  unfold std_floats. cbn [parse_f32 parse_f64 show_f32 show_f64 Ext0]. split; [exact read32|]. split; [exact read64|].
  split; [intro s; split; apply parse_float_returns|]. split; [intros s e [H|H]; [apply err32 in H | apply err64 in H]; exact (proj2 H)|].
  split; intros x X; [apply show32 | apply show64]; try exact X; reflexivity.
Qed.
Lemma std_parse : forall (A B : str -> res float_err N) (T : str -> N -> Prop),
  (forall s x, A s = Ok x <-> T s x) -> (forall s x, B s = Ok x <-> T s x) -> (forall s, A s <> Panic) -> (forall s, B s <> Panic) ->
  (forall s e, A s = Err e -> (s = [] /\ e = FloatEmpty) \/ (s <> [] /\ e = FloatInvalid)) -> (forall s e, B s = Err e -> (s = [] /\ e = FloatEmpty) \/ (s <> [] /\ e = FloatInvalid)) ->
  forall s, A s = B s.
Proof.
  intros A B T HA HB PA PB EA EB s. destruct (A s) as [x|e|] eqn:Qa; [|destruct (B s) as [y|e'|] eqn:Qb|].
  - symmetry. apply HB, HA. exact Qa.
  - apply HB, HA in Qb. congruence.
  - apply EA in Qa. apply EB in Qb. f_equal. destruct Qa as [[H1 ->]|[H1 ->]]; destruct Qb as [[H2 ->]|[H2 ->]]; congruence.
  - destruct (PB s Qb).
  - destruct (PA s Qa).
Qed.
Lemma std_one : forall A B : Ext, std_floats A -> std_floats B ->
  (forall s, parse_f32 (Ext := A) s = parse_f32 (Ext := B) s) /\ (forall s, parse_f64 (Ext := A) s = parse_f64 (Ext := B) s) /\
  (forall x, x < 2 ^ 32 -> show_f32 (Ext := A) x = show_f32 (Ext := B) x) /\ (forall x, x < 2 ^ 64 -> show_f64 (Ext := A) x = show_f64 (Ext := B) x).
Proof.
  intros A B (A1 & A2 & A3 & A4 & A5 & A6) (B1 & B2 & B3 & B4 & B5 & B6). split; [|split; [|split]].
  - apply (std_parse _ _ (float_text 23 8) A1 B1); [apply A3 | apply B3 | intros s e H; apply A4; left; exact H | intros s e H; apply B4; left; exact H].
  - apply (std_parse _ _ (float_text 52 11) A2 B2); [apply A3 | apply B3 | intros s e H; apply A4; right; exact H | intros s e H; apply B4; right; exact H].
  - intros x X. exact (printed_unique 23 8 (le1 23 eq_refl) (le2 8 eq_refl) x _ _ (A5 x X) (B5 x X)).
  - intros x X. exact (printed_unique 52 11 (le1 52 eq_refl) (le2 11 eq_refl) x _ _ (A6 x X) (B6 x X)).
Qed.

(** ** Order *)
Lemma key_value : forall x y, x < 2 ^ 32 -> y < 2 ^ 32 -> ((f_key 31 y <= f_key 31 x)%Z <-> (signed_value 23 8 y <= signed_value 23 8 x)%Z).
Proof.
  assert (Lt : forall a b, a < b -> magnitude 23 a < magnitude 23 b) by exact (mag_lt 23 8 (le1 23 eq_refl) (le2 8 eq_refl)).
  assert (Z0 : magnitude 23 0 = 0) by reflexivity.
  assert (B : forall x, x < 2 ^ 32 -> f_neg 31 x = negb (x <? 2 ^ 31)).
  { intros x X. unfold f_neg. rewrite N.testbit_eqb. change (2 ^ 32) with 4294967296 in X. change (2 ^ 31) with 2147483648. destruct (N.ltb_spec x 2147483648) as [L|L].
    - rewrite N.div_small by exact L. reflexivity.
    - assert (H : x / 2147483648 = 1) by (symmetry; apply N.div_unique with (x - 2147483648); lia). rewrite H. reflexivity. }
  intros x y X Y. unfold f_key, signed_value, f_mag. rewrite (B x X), (B y Y). change (23 + 8) with 31. set (a := x mod 2 ^ 31). set (b := y mod 2 ^ 31). clearbody a b.
  assert (H1 := Lt a b). assert (H2 := Lt b a). assert (H3 := Lt 0 a). assert (H4 := Lt 0 b). rewrite Z0 in *. 
  set (ma := magnitude 23 a) in *. set (mb := magnitude 23 b) in *.
  assert (H5 : a = b -> ma = mb) by (intros ->; reflexivity). assert (H6 : a = 0 -> ma = 0) by (intros ->; exact Z0). assert (H7 : b = 0 -> mb = 0) by (intros ->; exact Z0).
  clearbody ma mb. destruct (x <? 2 ^ 31), (y <? 2 ^ 31); cbn [negb]; lia.
Qed.
Lemma ge_value : forall x y, x < 2 ^ 32 -> y < 2 ^ 32 ->
  (f32_ge x y = true <-> a_number 23 8 x /\ a_number 23 8 y /\ (signed_value 23 8 y <= signed_value 23 8 x)%Z).
Proof.
  intros x y X Y. unfold f32_ge, f32_is_nan, a_number, f_mag. change f32_inf with (infinity 23 8). change (23 + 8) with 31. rewrite !andb_true_iff, !negb_true_iff, !N.ltb_ge, Z.leb_le, (key_value x y X Y). tauto.
Qed.

(** ** Frame rates *)
Section WithExt.
Context {E : Ext}.
Lemma framerate_text_iff : std_floats E -> forall v x, framerate_value v x <-> framerate_text v x.
Proof.
  intros (_ & S2 & _) v x. unfold framerate_value, framerate_text, f64_is_nan, f64_is_infinite, f64_is_zero, f_mag. change f64_inf with (infinity 52 11). 
  assert (Iv : infinity 52 11 < 2 ^ 63) by (vm_compute; reflexivity).
  assert (M1 : forall m, m <= infinity 52 11 -> m mod 2 ^ 63 = m) by (intros m M; apply N.mod_small; lia).
  assert (M2 : forall m, m <= infinity 52 11 -> (2 ^ 63 + m) mod 2 ^ 63 = m).
  { intros m M. rewrite <- (N.mul_1_l (2 ^ 63)) at 1. rewrite N.add_comm, N.mod_add by discriminate. apply M1. exact M. }
  split.
  - intros (t & C & Px & H1 & H2 & H3). apply S2 in Px. destruct Px as (sign & u & m & -> & T & Sg).
    apply N.ltb_ge in H1. apply N.eqb_neq in H2. apply N.eqb_neq in H3.
    assert (Mx : x mod 2 ^ 63 = m mod 2 ^ 63).
    { change (2 ^ (52 + 11)) with (2 ^ 63) in Sg. destruct Sg as [[_ ->]|[[_ ->]|[_ ->]]]; [reflexivity | reflexivity |].
      rewrite <- (N.mul_1_l (2 ^ 63)) at 1. rewrite N.add_comm, N.mod_add by discriminate. reflexivity. }
    rewrite Mx in *. destruct T as [[_ ->]|[[_ ->]|(d & z & D & Nr)]].
    + rewrite M1 in H2 by lia. destruct (H2 eq_refl).
    + exfalso. change ((infinity 52 11 + 2 ^ (52 - 1)) mod 2 ^ 63) with (infinity 52 11 + 2 ^ (52 - 1)) in H1. apply N.leb_le in H1. vm_compute in H1. discriminate H1.
    + assert (Mi := proj1 Nr). rewrite M1 in * by exact Mi. exists sign, u, d, z, m. split; [exact C|]. split; [exact D|]. split; [exact Nr|]. split; [lia|]. split; [lia|]. exact Sg.
  - intros (sign & u & d & z & m & C & D & Nr & L0 & Li & Sg). exists (sign ++ u). split; [exact C|]. split.
    + apply S2. exists sign, u, m. split; [reflexivity|]. split; [right; right; exists d, z; split; assumption | exact Sg].
    + assert (Mx : x mod 2 ^ 63 = m) by (destruct Sg as [[_ ->]|[[_ ->]|[_ ->]]]; [apply M1 | apply M1 | apply M2]; lia).
      rewrite Mx. split; [apply N.ltb_ge; lia|]. split; apply N.eqb_neq; lia.
Qed.
Lemma framerate_lines : std_floats E -> forall v n l, parse_sdp_line (lit "a=framerate:" ++ v) n = Ok l <->
  exists x, framerate_text v x /\ l = {| l_number := n; l_type := TyAttribute (AFrameRate x); l_text := lit "a=framerate:" ++ v |}.
Proof.
  intros St v n l. transitivity (exists x, framerate_value v x /\ l = {| l_number := n; l_type := TyAttribute (AFrameRate x); l_text := lit "a=framerate:" ++ v |}).
  - change (lit "a=framerate:" ++ v) with (lit "a=" ++ lit "framerate" ++ 58 :: v). rewrite attr_line; [|reflexivity..|eexists _, _; split; reflexivity]. split.
    + intros (a & H & ->). apply framerate_iff in H. destruct H as (x & -> & H). exists x. split; [exact H | reflexivity].
    + intros (x & H & ->). eexists. split; [apply framerate_iff; exists x; split; [reflexivity | exact H] | reflexivity].
  - split; intros (x & H & ->); exists x; (split; [|reflexivity]); apply (framerate_text_iff St); exact H.
Qed.
Lemma framerate_printed : std_floats E -> forall x, x < 2 ^ 64 -> exists s, printed_float 52 11 x s /\ show_attr (AFrameRate x) = lit "framerate:" ++ s.
Proof.
  intros (_ & _ & _ & _ & _ & S6) x X. exists (show_f64 x). split; [exact (S6 x X)|]. cbn [show_attr]. unfold attr_to_string.
  destruct (show_f64 x) eqn:Q; [|reflexivity]. exfalso. assert (K := S6 x X). rewrite Q in K.
  apply (show64 x _ X) in K. destruct (proj1 (f64_show_chars Ext0 ext0_ok x) K).
Qed.
End WithExt.
Lemma tenth : nearest 23 8 1 10 1036831949.
Proof.
  assert (R := round_nearest 23 8 (le1 23 eq_refl) (le2 8 eq_refl) 1 10 eq_refl). vm_compute (round _ _ _ _) in R. exact R.
Qed.

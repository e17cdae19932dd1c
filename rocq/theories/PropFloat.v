(** * Decimals are read as the nearest float and printed with the fewest digits (C60)

    [Ext0] contains a decimal reader and printer for f32 and f64, written after the
    standard library's.  Here: what they compute, that nothing else would meet that
    description, and what it means for lines with floats. *)
From Coq Require Import List NArith ZArith Bool Ascii String.
From Verif Require Import Str Num Net Types Ext Show Address AttrParse Media Session Ext0
  SpecVal SpecFloat PFloat4.
Import ListNotations.
Open Scope N_scope.
Open Scope list_scope.

(** There is a nearest float, and only one. *)
Theorem C60_one_nearest : forall p w, In (p, w) [(23, 8); (52, 11)] -> forall num den, 0 < den ->
  exists x, nearest p w num den x /\ forall y, nearest p w num den y -> y = x.
Proof.
  intros p w F num den D. destruct (near_some p w num den F D) as [x H]. exists x. split; [exact H|].
  intros y K. exact (near_one p w num den y x F D K H).
Qed.

Theorem C60_f32_read : forall s x, parse_f32 (Ext := Ext0) s = Ok x <-> float_text 23 8 s x.
Proof. exact read32. Qed.

Theorem C60_f64_read : forall s x, parse_f64 (Ext := Ext0) s = Ok x <-> float_text 52 11 s x.
Proof. exact read64. Qed.

Theorem C60_f32_printed : forall x s, x < 2 ^ 32 -> (show_f32 (Ext := Ext0) x = s <-> printed_float 23 8 x s).
Proof. exact show32. Qed.

Theorem C60_f64_printed : forall x s, x < 2 ^ 64 -> (show_f64 (Ext := Ext0) x = s <-> printed_float 52 11 x s).
Proof. exact show64. Qed.

(** The description is met by [Ext0], and it leaves nothing open. *)
Theorem C60_ext0 : std_floats Ext0.
Proof. exact ext0_std. Qed.

Theorem C60_nothing_else : forall A B : Ext, std_floats A -> std_floats B ->
  (forall s, parse_f32 (Ext := A) s = parse_f32 (Ext := B) s) /\
  (forall s, parse_f64 (Ext := A) s = parse_f64 (Ext := B) s) /\
  (forall x, x < 2 ^ 32 -> show_f32 (Ext := A) x = show_f32 (Ext := B) x) /\
  (forall x, x < 2 ^ 64 -> show_f64 (Ext := A) x = show_f64 (Ext := B) x).
Proof. exact std_one. Qed.

(** The comparison in sar and par ranges is that of the values. *)
Theorem C60_order : forall x y, x < 2 ^ 32 -> y < 2 ^ 32 ->
  (f32_ge x y = true <->
   a_number 23 8 x /\ a_number 23 8 y /\ (signed_value 23 8 y <= signed_value 23 8 x)%Z).
Proof. exact ge_value. Qed.

(** Lines. *)
Theorem C60_framerate_lines : forall E : Ext, std_floats E -> forall v n l,
  parse_sdp_line (lit "a=framerate:" ++ v) n = Ok l <->
  exists x, framerate_text v x /\
    l = {| l_number := n; l_type := TyAttribute (AFrameRate x); l_text := lit "a=framerate:" ++ v |}.
Proof. exact @framerate_lines. Qed.

Theorem C60_framerate_printed : forall E : Ext, std_floats E -> forall x, x < 2 ^ 64 ->
  exists s, printed_float 52 11 x s /\ show_attr (AFrameRate x) = lit "framerate:" ++ s.
Proof. exact @framerate_printed. Qed.

(** ** Examples *)
Definition reads32 (s : string) (x : N) : Prop := parse_f32 (Ext := Ext0) (of_string s) = Ok x.
Definition reads64 (s : string) (x : N) : Prop := parse_f64 (Ext := Ext0) (of_string s) = Ok x.
(** 0.1 is 13421773 / 2^27; ties go to the even neighbour; too large is infinite. *)
Example C60_read_example :
  reads32 "0.1" 1036831949 /\ reads32 "+.1" 1036831949 /\ reads32 "1.e-1" 1036831949 /\ reads32 "-0.1" (2 ^ 31 + 1036831949) /\
  reads32 "16777217" 1266679808 /\ reads32 "16777219" 1266679810 /\ reads32 "3.5e38" (infinity 23 8) /\ reads32 "1e-46" 0 /\
  reads64 "29.97" 4629129022734147256 /\ reads64 "1e23" 4950912855330343670 /\ reads64 "2.4703282292062328e-324" 1 /\
  reads64 "2.4703282292062327e-324" 0 /\ reads64 "-InFiNiTy" (2 ^ 63 + infinity 52 11) /\ reads64 "nan" 9221120237041090560.
Proof. vm_compute. repeat split. Qed.
Example C60_nearest_example : nearest 23 8 1 10 1036831949 /\ ~ nearest 23 8 1 10 1036831948.
Proof.
  assert (H : nearest 23 8 1 10 1036831949).
  { exact tenth. }
  split; [exact H|]. intro K. assert (Q := near_one 23 8 1 10 _ _ (or_introl eq_refl) eq_refl H K). discriminate Q.
Qed.
Definition bad (s : string) : Prop :=
  parse_f32 (Ext := Ext0) (of_string s) = Err FloatInvalid /\ parse_f64 (Ext := Ext0) (of_string s) = Err FloatInvalid.
Example C60_bad_example : bad "." /\ bad "+" /\ bad "1e" /\ bad "1e+" /\ bad "1.2.3" /\ bad " 1" /\ bad "0x1p3" /\ bad "1_0" /\ bad "infinit" /\ bad "--1" /\
  parse_f32 (Ext := Ext0) [] = Err FloatEmpty.
Proof. vm_compute. repeat split. Qed.
(** The fewest digits, the nearest of those, the upper of two. *)
Example C60_print_example :
  map (show_f32 (Ext := Ext0)) [1036831949; 2 ^ 31 + 1036831949; 1241513985; 1266679808; infinity 23 8; 2 ^ 31; 4290772992; 1] =
    map of_string ["0.1"; "-0.1"; "2097152.3"; "16777216"; "inf"; "-0"; "NaN"; "0.000000000000000000000000000000000000000000001"]%string /\
  map (show_f64 (Ext := Ext0)) [4629129022734147256; 4950912855330343670; 4502148214488346440] =
    map of_string ["29.97"; "100000000000000000000000"; "0.0000001"]%string.
Proof. vm_compute. split; reflexivity. Qed.
Example C60_line_example :
  (exists x l, parse_sdp_line (E := Ext0) (lit "a=framerate: 29.97") 3 = Ok l /\ l_type l = TyAttribute (AFrameRate x) /\ x = 4629129022734147256) /\
  (exists l, parse_sdp_line (E := Ext0) (lit "a=framerate:-1e-300") 3 = Ok l) /\
  (exists e, parse_sdp_line (E := Ext0) (lit "a=framerate:1e-330") 3 = Err e) /\
  (exists e, parse_sdp_line (E := Ext0) (lit "a=framerate:1e309") 3 = Err e) /\
  (exists e, parse_sdp_line (E := Ext0) (lit "a=framerate:0.0") 3 = Err e).
Proof. split; [do 2 eexists; split; [vm_compute; reflexivity | split; reflexivity]|]. repeat split; eexists; vm_compute; reflexivity. Qed.

Definition theorems := (C60_one_nearest, C60_f32_read, C60_f64_read, C60_f32_printed, C60_f64_printed, C60_ext0, C60_nothing_else,
  C60_order, C60_framerate_lines, C60_framerate_printed).
Print Assumptions theorems.

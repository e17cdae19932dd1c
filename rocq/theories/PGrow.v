(** * Proofs for C65 *)
From Coq Require Import List Arith NArith ZArith Lia Bool Ascii String ZifyBool ZifyNat ZifyN.
From Verif Require Import Str Num Net Types Ext Show Session SpecApi SpecDoc SpecVal SpecItems SpecSize SpecGrow.
From Verif Require Import StrLemmas NumLemmas NetLemmas PExt0 PVal11 PSize PPrint10.
Import ListNotations.
Open Scope nat_scope.
Open Scope list_scope.

Lemma len_N : forall n k, (n < 10 ^ N.of_nat k)%N -> 1 <= k -> List.length (show_N n) <= k.
Proof. intros n k. apply show_N_short. Qed.
Lemma len_u8 : forall n, (n <= 255)%N -> List.length (show_N n) <= 3.
Proof. intros n H. apply len_N; [change (10 ^ N.of_nat 3)%N with 1000%N|]; lia. Qed.
Lemma len_u16 : forall n, (n <= 65535)%N -> List.length (show_N n) <= 5.
Proof. intros n H. apply len_N; [change (10 ^ N.of_nat 5)%N with 100000%N|]; lia. Qed.
Lemma len_u32 : forall n, (n <= 4294967295)%N -> List.length (show_N n) <= 10.
Proof. intros n H. apply len_N; [change (10 ^ N.of_nat 10)%N with 10000000000%N|]; lia. Qed.
Lemma len_u64 : forall n, (n <= 18446744073709551615)%N -> List.length (show_N n) <= 20.
Proof. intros n H. apply len_N; [change (10 ^ N.of_nat 20)%N with 100000000000000000000%N|]; lia. Qed.

(** Lists. *)
Lemma len_join : forall sep l, List.length (join sep l) <= sum (fun s => List.length s + List.length sep) l.
Proof.
  intros sep. induction l as [|x l IH]; [apply le_n|]. destruct l as [|y l].
  - rewrite sum_cons. cbn [join]. lia.
  - rewrite sum_cons. change (join sep (x :: y :: l)) with (x ++ sep ++ join sep (y :: l)). rewrite !app_length. lia.
Qed.
Lemma sum_le : forall A (f g : A -> nat) l, (forall x, In x l -> f x <= g x) -> sum f l <= sum g l.
Proof.
  intros A f g. induction l as [|x l IH]; intros H; [apply le_n|]. cbn [sum fold_right].
  assert (X := H x (or_introl eq_refl)). assert (Y := IH (fun y I => H y (or_intror I))). unfold sum in Y. lia.
Qed.
Lemma sum_map : forall A B (f : B -> nat) (g : A -> B) l, sum f (map g l) = sum (fun x => f (g x)) l.
Proof. intros A B f g. induction l as [|x l IH]; [reflexivity|]. cbn [map sum fold_right] in *. unfold sum in IH. lia. Qed.
Lemma sum_filter : forall A (f : A -> nat) p l, sum f (filter p l) <= sum f l.
Proof. intros A f p. induction l as [|x l IH]; [apply le_n|]. cbn [filter sum fold_right] in *. unfold sum in *. destruct (p x); cbn [fold_right]; lia. Qed.
Lemma sum_scale : forall A (f g : A -> nat) k l, (forall x, In x l -> S (f x) <= k * S (g x)) -> sum f l <= k * sum g l.
Proof.
  intros A f g k. induction l as [|x l IH]; intros H; [cbn; lia|]. cbn [sum fold_right].
  assert (X := H x (or_introl eq_refl)). assert (Y := IH (fun y I => H y (or_intror I))). unfold sum in Y. nia.
Qed.
Lemma sum_zero : forall A (l : list A), sum (fun _ => 0) l = List.length l.
Proof. intros A. induction l as [|x l IH]; [reflexivity|]. cbn [sum fold_right List.length] in *. unfold sum in IH. lia. Qed.
Lemma len_show_vec : forall A pre suf sep (show : A -> str) l,
  List.length (show_vec pre suf sep show l) <=
    List.length pre + List.length suf + sum (fun x => List.length (show x) + List.length sep) l.
Proof.
  intros A pre suf sep show l. destruct l as [|x l]; [cbn; lia|]. unfold show_vec. rewrite !app_length.
  assert (J := len_join sep (filter non_empty (map show (x :: l)))).
  assert (F := sum_filter _ (fun s => List.length s + List.length sep) non_empty (map show (x :: l))).
  rewrite sum_map in F. lia.
Qed.
Lemma len_params : forall l, List.length (join [c_semi] (non_empty_vec l)) <= sum (fun s => List.length s + 1) l.
Proof. intros l. assert (J := len_join [c_semi] (non_empty_vec l)). assert (F := sum_filter _ (fun s => List.length s + 1) non_empty l). unfold non_empty_vec in *. cbn [List.length] in J. lia. Qed.
Lemma len_opt : forall A pre (show : A -> str) suf o k, (forall x, o = Some x -> List.length (show x) <= k) ->
  List.length (show_opt pre show suf o) <= List.length pre + List.length suf + k.
Proof. intros A pre show suf [x|] k H; cbn [show_opt]; [|cbn; lia]. rewrite !app_length. specialize (H x eq_refl). lia. Qed.
Lemma len_opt_text : forall pre suf (o : option str),
  List.length (show_opt pre (fun s => s) suf o) <= List.length pre + List.length suf + opt text o.
Proof. intros pre suf [x|]; cbn [show_opt opt]; [|cbn; lia]. rewrite !app_length. unfold text. lia. Qed.
Lemma len_param : forall name n d k, List.length (show_N n) <= k -> List.length (maybe_param name n d) <= List.length name + k.
Proof. intros name n d k H. unfold maybe_param. destruct (n =? d)%N; [cbn; lia|]. rewrite app_length. lia. Qed.
Lemma len_bool : forall name b d, List.length (maybe_bool_param name b d) <= List.length name + 2.
Proof. intros name b d. unfold maybe_bool_param. destruct (Bool.eqb b d); [cbn; lia|]. rewrite !app_length. destruct b; cbn; lia. Qed.

(** Addresses. *)
Lemma len_hex : forall n k, (n < 16 ^ N.of_nat k)%N -> 1 <= k -> List.length (show_hex n) <= k.
Proof. intros n k H K. apply show_radix_length; [lia | exact K | exact H]. Qed.
Lemma len_HEX : forall n, (n <= 255)%N -> List.length (pad0 2 (show_HEX n)) = 2.
Proof.
  intros n H. unfold pad0. rewrite app_length, repeat_length.
  assert (L : List.length (show_HEX n) <= 2) by (apply show_radix_length; [lia | lia | change (16 ^ N.of_nat 2)%N with 256%N; lia]). lia.
Qed.
Lemma sum_const : forall A (f : A -> nat) k l, (forall x, In x l -> S (f x) <= k) -> sum f l <= k * List.length l.
Proof. intros A f k l H. rewrite <- sum_zero. apply sum_scale. intros x I. specialize (H x I). lia. Qed.
Lemma len_ip4 : forall n, List.length (show_ip4 n) <= 20.
Proof.
  intros n. unfold show_ip4. assert (J := len_join [c_dot] (map show_N (octets4 n))). rewrite sum_map in J. cbn [List.length] in J.
  assert (K : sum (fun x => List.length (show_N x) + 1) (octets4 n) <= 5 * List.length (octets4 n)).
  { apply sum_const. intros x I. assert (L := be_digits_lt 4 256 n ltac:(lia)). rewrite Forall_forall in L. specialize (L x I).
    assert (U := len_u8 x ltac:(lia)). lia. }
  unfold octets4 in K at 2. rewrite be_digits_length in K. lia.
Qed.
Lemma len_groups : forall l, Forall (fun g => (g <= 65535)%N) l -> List.length (fmt_subslice l) <= 6 * List.length l.
Proof.
  intros l H. unfold fmt_subslice. assert (J := len_join [c_colon] (map show_hex l)). rewrite sum_map in J. cbn [List.length] in J.
  assert (K : sum (fun x => List.length (show_hex x) + 1) l <= 6 * List.length l).
  { apply sum_const. intros x I. rewrite Forall_forall in H. specialize (H x I).
    assert (U := len_hex x 4 ltac:(change (16 ^ N.of_nat 4)%N with 65536%N; lia) ltac:(lia)). lia. }
  lia.
Qed.
Lemma len_ip6 : forall n, List.length (show_ip6 n) <= 98.
Proof.
  intros n. assert (S8 := proj1 (segments6_ok n)). assert (L8 : List.length (segments6 n) = 8) by apply be_digits_length.
  assert (G : List.length (fmt_subslice (segments6 n)) <= 48) by (assert (X := len_groups _ S8); lia).
  assert (H : List.length (let z := zero_span 0 (segments6 n) {| sp_start := 0; sp_len := 0 |} {| sp_start := 0; sp_len := 0 |} in
      if Nat.ltb 1 (sp_len z) then
        fmt_subslice (firstn (sp_start z) (segments6 n)) ++ lit "::" ++
        fmt_subslice (skipn (sp_start z + sp_len z) (segments6 n))
      else fmt_subslice (segments6 n)) <= 98).
  { cbv zeta. set (z := zero_span _ _ _ _). destruct (Nat.ltb 1 (sp_len z)); [|lia]. rewrite !app_length. cbn [List.length].
    assert (X := len_groups (firstn (sp_start z) (segments6 n))). assert (Y := len_groups (skipn (sp_start z + sp_len z) (segments6 n))).
    assert (F1 : Forall (fun g => (g <= 65535)%N) (firstn (sp_start z) (segments6 n))) by (rewrite Forall_forall in *; intros g I; apply S8; rewrite <- (firstn_skipn (sp_start z) (segments6 n)); apply in_or_app; left; exact I).
    assert (F2 : Forall (fun g => (g <= 65535)%N) (skipn (sp_start z + sp_len z) (segments6 n))) by (rewrite Forall_forall in *; intros g I; apply S8; rewrite <- (firstn_skipn (sp_start z + sp_len z) (segments6 n)); apply in_or_app; right; exact I).
    specialize (X F1). specialize (Y F2). rewrite firstn_length in X. rewrite skipn_length in Y. lia. }
  unfold show_ip6. destruct (segments6 n) as [|a1 [|a2 [|a3 [|a4 [|a5 [|a6 [|a7 [|a8 [|a9 l]]]]]]]]]; try discriminate L8.
  assert (M : List.length (lit "::ffff:" ++ show_ip4 (a7 * 65536 + a8)) <= 98) by (rewrite app_length; assert (X := len_ip4 (a7 * 65536 + a8)); cbn [List.length]; lia).
  repeat match goal with |- context [match ?x with N0 => _ | Npos _ => _ end] => destruct x as [|x]; try exact H end.
  repeat (match goal with |- context [match ?x with xI _ => _ | xO _ => _ | xH => _ end] => destruct x as [x|x|]; try exact H end).
  exact M.
Qed.
Lemma len_ip : forall i, List.length (show_ip i) <= 98.
Proof. intros [n|n]; cbn [show_ip]; [assert (X := len_ip4 n) | assert (X := len_ip6 n)]; lia. Qed.
Lemma len_address : forall a, List.length (show_address a) <= 98 + address_size a.
Proof. intros [d|i]; cbn [show_address address_size]; [unfold text | assert (X := len_ip i)]; lia. Qed.
Lemma len_typed : forall a, List.length (show_typed_address a) <= 105 + typed_size a.
Proof.
  intros a. unfold show_typed_address. rewrite !app_length. assert (T : List.length (show_addr_type (typed_addr_type a)) = 3) by (destruct (typed_addr_type a); reflexivity).
  rewrite T. cbn [List.length sp]. destruct a as [t d|i]; cbn [typed_size]; [unfold text | assert (X := len_ip i)]; lia.
Qed.
Lemma len_opt_address : forall pre o, List.length (show_opt pre show_address [] o) <= List.length pre + 98 + opt address_size o.
Proof. intros pre [a|]; cbn [show_opt opt]; [|cbn; lia]. rewrite !app_length. assert (X := len_address a). cbn [List.length]. lia. Qed.

(** Numbers that may be absent. *)
Lemma len_opt_N : forall pre o max k, at_most max o -> (forall n, (n <= max)%N -> List.length (show_N n) <= k) ->
  List.length (show_opt pre show_N [] o) <= List.length pre + k.
Proof. intros pre o max k A H. assert (X := len_opt N pre show_N [] o k). cbn [List.length] in X. rewrite Nat.add_0_r in X. apply X. intros x ->. apply H. exact A. Qed.

Section Within.
Context {E : Ext}.
Variable m : nat.
Hypothesis FW : floats_within m.
Lemma f32_len : forall x, (x <= 4294967295)%N -> List.length (show_f32 x) <= m.
Proof. exact (proj1 FW). Qed.
Lemma f64_len : forall x, (x <= 18446744073709551615)%N -> List.length (show_f64 x) <= m.
Proof. exact (proj2 FW). Qed.

Lemma len_candidate : forall c, candidate_range c -> List.length (show_candidate c) <= 420 + 2 * candidate_size c.
Proof.
  intros c (C1 & C2 & C3 & C4 & C5 & C6 & _ & _). unfold show_candidate, candidate_size. rewrite !app_length.
  assert (X1 := len_u32 _ C1). assert (X2 := len_u64 _ C2). assert (X3 := len_u16 _ C3).
  assert (X4 := len_opt_N (lit " rport ") _ _ 5 C4 len_u16). assert (X5 := len_opt_N (lit " generation ") _ _ 10 C5 len_u32).
  assert (X6 := len_opt_N (lit " network-cost ") _ _ 10 C6 len_u32).
  assert (X7 := len_address (cand_address c)). assert (X8 := len_opt_address (lit " raddr ") (raddr c)).
  assert (X9 := len_opt tcp_type_t (lit " tcptype ") show_tcp_type [] (tcp_type c) 7 ltac:(intros [] _; cbn; lia)).
  assert (XA := len_opt_text (lit " ufrag ") [] (ufrag c)).
  assert (XB : List.length (show_transport (transport c)) = 3) by (destruct (transport c); reflexivity).
  assert (XC : List.length (show_cand_type (c_type c)) <= 5) by (destruct (c_type c); cbn; lia).
  assert (XD : List.length (flat_map (fun nv => sp ++ fst nv ++ sp ++ snd nv) (unknown_extensions c)) <= 2 * sum pair_size (unknown_extensions c)).
  { induction (unknown_extensions c) as [|[a b] l IH]; [apply le_n|]. rewrite sum_cons. cbn [flat_map]. rewrite !app_length. cbn [List.length sp fst snd]. unfold pair_size at 1. cbn [fst snd]. unfold text. lia. }
  cbn [List.length sp] in *. unfold text in *. lia.
Qed.
Lemma len_rtcp_fb : forall f, payload_range (fb_payload_type f) -> List.length (show_rtcp_fb f) <= 20 + text (fb_parameter f) + text (fb_extra f).
Proof.
  intros f H. unfold show_rtcp_fb. rewrite !app_length.
  assert (P : List.length (show_payload_type (fb_payload_type f)) <= 3) by (destruct (fb_payload_type f); cbn [show_payload_type]; [exact (len_u8 _ H) | cbn; lia]).
  assert (T : List.length (show_rtcp_fb_type (fb_feedback_type f)) <= 12) by (destruct (fb_feedback_type f); cbn; lia).
  destruct (is_empty (fb_parameter f)); [cbn [List.length sp]; lia|]. rewrite !app_length. unfold maybe_param_str. destruct (str_eqb _ _); rewrite ?app_length; cbn [List.length sp]; unfold text; lia.
Qed.
Lemma len_fmtp : forall f, (fmtp_payload_type f <= 255)%N -> fmtp_range (fmtp_parameters f) ->
  List.length (show_fmtp f) <= 480 + 5 * fmtp_size (fmtp_parameters f).
Proof.
  intros f Hp. unfold show_fmtp. cbv zeta. set (p := fmtp_parameters f). intros (R1 & R2 & R3 & R4 & R5 & R6 & R7 & R8 & R9 & RA & RB & RC & RD & RE & RF & RG & RH & RI).
  assert (L : List.length (show_fmtp_params p) <= 476 + 5 * fmtp_size p).
  { unfold show_fmtp_params, fmtp_size. destruct (rtx p) as [r|].
    { destruct RI as [I1 I2]. unfold show_rtx. assert (X1 := len_u8 _ I1). destruct (rtx_time r) as [t|]; [assert (X2 := len_u32 t I2)|]; rewrite !app_length; cbn [List.length]; lia. }
    destruct (non_empty (dtmf_tones p)); [unfold text; lia|]. destruct (encodings p) as [|e es].
    2:{ assert (J := len_join [c_slash] (map show_N (e :: es))). rewrite sum_map in J. cbn [List.length] in J.
        assert (K : sum (fun x => List.length (show_N x) + 1) (e :: es) <= 5 * List.length (e :: es)).
        { apply sum_const. intros x I. rewrite Forall_forall in RH. specialize (RH x I). assert (X := len_u8 x ltac:(lia)). lia. }
        cbn [List.length] in *. lia. }
    assert (J := len_params (fmtp_param_list p)).
    assert (V := len_show_vec str [] [] [c_comma] (fun s => s) (unknown_tokens p)). cbn [List.length] in V.
    assert (V2 : sum (fun x : str => List.length x + 1) (unknown_tokens p) <= 2 * sum text (unknown_tokens p)) by (apply sum_scale; intros x _; unfold text; lia).
    assert (Q : sum (fun s => List.length s + 1) (fmtp_param_list p) <= 470 + 2 * sum text (unknown_tokens p)).
    { unfold fmtp_param_list. rewrite !sum_cons, sum_nil.
      assert (X1 : List.length (maybe_param_str (lit "profile-level-id=") (pad0 6 (show_hex (profile_level_id p))) (lit "42000a")) <= 23).
      { unfold maybe_param_str. destruct (str_eqb _ _); [cbn; lia|]. rewrite app_length. unfold pad0. rewrite app_length, repeat_length.
        assert (X := len_hex (profile_level_id p) 6 ltac:(change (16 ^ N.of_nat 6)%N with 16777216%N; lia) ltac:(lia)). cbn [List.length]. lia. }
      repeat match goal with |- context [maybe_param ?n ?v ?d] =>
        let Y := fresh "Y" in assert (Y := len_param n v d 10 (len_u32 v ltac:(unfold u32 in *; lia))); cbn [List.length] in Y;
        let x := fresh "x" in set (x := maybe_param n v d) in *; clearbody x end.
      repeat match goal with |- context [maybe_bool_param ?n ?v ?d] =>
        let Y := fresh "Y" in assert (Y := len_bool n v d); cbn [List.length] in Y;
        let x := fresh "x" in set (x := maybe_bool_param n v d) in *; clearbody x end.
      assert (Z1 := len_opt_N (lit "profile=") _ _ 3 R3 (fun n H => len_u8 n ltac:(lia))).
      assert (Z2 := len_opt_N (lit "level-idx=") _ _ 3 R4 (fun n H => len_u8 n ltac:(lia))).
      assert (Z3 := len_opt_N (lit "tier=") _ _ 3 R5 (fun n H => len_u8 n ltac:(lia))).
      cbn [List.length] in *. lia. }
    cbn [List.length]. lia. }
  destruct (is_empty (show_fmtp_params p)); [cbn [List.length]; lia|]. rewrite !app_length. assert (X := len_u8 _ Hp). cbn [List.length sp]. lia.
Qed.

Lemma len_xy : forall r, xy_range_range r -> List.length (show_xy_range r) <= 36 + 12 * xy_size r.
Proof.
  intros [a b s|l]; cbn [xy_range_range show_xy_range xy_size].
  - intros (A & B & C). rewrite !app_length. assert (X1 := len_u32 _ A). assert (X2 := len_u32 _ B).
    assert (X3 := len_opt N [] show_N [c_colon] s 10 ltac:(intros x ->; exact (len_u32 _ C))). cbn [List.length] in *. lia.
  - intros [_ F]. assert (K : sum (fun x => List.length (show_N x) + 1) l <= 12 * List.length l).
    { apply sum_const. intros x I. rewrite Forall_forall in F. assert (X := len_u32 x (F x I)). lia. }
    assert (J := len_join [c_comma] (map show_N l)). rewrite sum_map in J. cbn [List.length] in J.
    destruct l as [|x [|y l]]; cbn [show_discrete].
    + cbn; lia.
    + rewrite Forall_forall in F. assert (X := len_u32 x (F x (or_introl eq_refl))). lia.
    + rewrite !app_length. cbn [List.length] in *. lia.
Qed.
Local Ltac lin := repeat rewrite ?Nat.mul_add_distr_l, ?Nat.mul_add_distr_r, ?Nat.mul_succ_r, ?Nat.mul_1_r, ?Nat.mul_0_r in *;
  rewrite <- ?Nat.mul_assoc in *;
  repeat match goal with |- context [m * ?a] => let x := fresh "x" in set (x := m * a) in *; clearbody x end; lia.
Lemma len_sar : forall r, match r with SRange a b => u32 a /\ u32 b /\ f32_ge a b = false | SDiscrete l => l <> [] /\ Forall u32 l end ->
  List.length (show_s_range r) <= 3 + 2 * m + (2 + m) * sar_size r.
Proof.
  intros [a b|l]; cbn [show_s_range sar_size].
  - intros (A & B & _). rewrite !app_length. assert (X1 := f32_len _ A). assert (X2 := f32_len _ B). cbn [List.length]. lia.
  - intros [_ F]. assert (K : sum (fun x => List.length (show_f32 x) + 1) l <= (2 + m) * List.length l).
    { apply sum_const. intros x I. rewrite Forall_forall in F. assert (X := f32_len x (F x I)). lia. }
    assert (J := len_join [c_comma] (map show_f32 l)). rewrite sum_map in J. cbn [List.length] in J.
    destruct l as [|x [|y l]]; cbn [show_discrete].
    + cbn; lia.
    + rewrite Forall_forall in F. assert (X := f32_len x (F x (or_introl eq_refl))). cbn [List.length]. lin.
    + rewrite !app_length. set (n := List.length (x :: y :: l)) in *. clearbody n. cbn [List.length] in *. lin.
Qed.
Lemma len_image_set : forall x, image_set_range x -> List.length (show_image_set x) <= 110 + 5 * m + (14 + m) * image_set_size x.
Proof.
  intros x (R1 & R2 & R3 & R4 & R5). unfold show_image_set, image_set_size. rewrite !app_length.
  assert (X1 := len_xy _ R1). assert (X2 := len_xy _ R2).
  assert (X3 : List.length (show_opt (lit ",sar=") show_s_range [] (set_sar x)) <= 8 + 2 * m + (2 + m) * opt sar_size (set_sar x)).
  { destruct (set_sar x) as [r|]; cbn [show_opt opt]; [|cbn; lia]. rewrite !app_length. assert (X := len_sar r R3). cbn [List.length]. lia. }
  assert (X4 : List.length (show_opt (lit ",par=") show_p_range [] (set_par x)) <= 8 + 2 * m).
  { destruct (set_par x) as [r|]; cbn [show_opt]; [|cbn; lia]. destruct R4 as (A & B & _). unfold show_p_range. rewrite !app_length.
    assert (Y1 := f32_len _ A). assert (Y2 := f32_len _ B). cbn [List.length]. lia. }
  assert (X5 := len_opt f32 (lit ",q=") show_f32 [] (set_q x) m ltac:(intros y Hy; rewrite Hy in R5; exact (f32_len y R5))).
  cbn [List.length] in *. set (a := xy_size (set_x x)) in *. set (b := xy_size (set_y x)) in *. set (c := opt sar_size (set_sar x)) in *. clearbody a b c. lin.
Qed.
Lemma len_image_list : forall pre l, image_list_range l ->
  List.length (show_opt pre show_image_set_list [] (maybe_sets l)) <= List.length pre + 1 + (112 + 6 * m) * image_list_size l.
Proof.
  intros pre [l|]; cbn [image_list_range image_list_size maybe_sets].
  - intros F. assert (K : sum (fun x => List.length (show_image_set x) + 1) l <= (112 + 6 * m) * sum image_set_size l).
    { apply sum_scale. intros x I. rewrite Forall_forall in F. assert (X := len_image_set x (F x I)). lin. }
    assert (J := len_join sp (map show_image_set l)). rewrite sum_map in J. cbn [List.length sp] in J.
    destruct l as [|x l]; [cbn; lia|]. cbn [show_opt show_image_set_list]. rewrite !app_length. cbn [List.length]. lia.
  - intros _. cbn [show_opt show_image_set_list]. rewrite !app_length. cbn [List.length]. lia.
Qed.
Lemma len_image_attr : forall i, payload_range (img_pt i) -> image_list_range (img_send i) -> image_list_range (img_recv i) ->
  List.length (show_image_attr i) <= 17 + (112 + 6 * m) * (image_list_size (img_send i) + image_list_size (img_recv i)).
Proof.
  intros i P A B. unfold show_image_attr. rewrite !app_length. assert (X1 := len_image_list (lit " send ") _ A). assert (X2 := len_image_list (lit " recv ") _ B).
  assert (X3 : List.length (show_payload_type (img_pt i)) <= 3) by (destruct (img_pt i); cbn [show_payload_type]; [exact (len_u8 _ P) | cbn; lia]).
  cbn [List.length] in *. lin.
Qed.
Lemma len_texts : forall sep l, List.length sep = 1 -> List.length (join sep l) <= 2 * sum text l.
Proof.
  intros sep l L. assert (J := len_join sep l). rewrite L in J.
  assert (K : sum (fun x : str => List.length x + 1) l <= 2 * sum text l) by (apply sum_scale; intros x _; unfold text; lia). lia.
Qed.
Lemma len_vec_texts : forall pre suf sep l, List.length sep = 1 ->
  List.length (show_vec pre suf sep (fun s : str => s) l) <= List.length pre + List.length suf + 2 * sum text l.
Proof.
  intros pre suf sep l L. assert (V := len_show_vec str pre suf sep (fun s => s) l). rewrite L in V.
  assert (K : sum (fun x : str => List.length x + 1) l <= 2 * sum text l) by (apply sum_scale; intros x _; unfold text; lia). lia.
Qed.
Lemma len_rid : forall r, rid_range r ->
  List.length (show_rid r) <= 190 + 8 * (text (rid_id r) + List.length (rid_formats r) + sum text (rid_depends r) + sum text (rid_unknown (rid_params_of r))).
Proof.
  intros r (F & P). unfold show_rid. set (p := rid_params_of r) in *. cbv zeta in P. destruct P as (P1 & P2 & P3 & P4 & P5 & P6). rewrite !app_length.
  assert (D : List.length (show_single_direction (rid_direction r)) = 4) by (destruct (rid_direction r); reflexivity).
  assert (Q : List.length (show_rid_params p) <= 160 + 2 * sum text (rid_unknown p)).
  { unfold show_rid_params. assert (J := len_params [maybe_param (lit "max-width=") (max_width p) 0; maybe_param (lit "max-height=") (max_height p) 0;
      maybe_param (lit "max-fps=") (max_fps p) 0; maybe_param (lit "max-fs=") (rid_max_fs p) 0; maybe_param (lit "max-br=") (rid_max_br p) 0;
      maybe_param (lit "max-pps=") (max_pps p) 0; show_vec [] [] [c_semi] (fun s => s) (rid_unknown p)]).
    eapply Nat.le_trans; [exact J|]. clear J. rewrite !sum_cons, sum_nil.
    assert (V := len_vec_texts [] [] [c_semi] (rid_unknown p) eq_refl).
    repeat match goal with |- context [maybe_param ?n ?v ?d] =>
        let Y := fresh "Y" in assert (Y := len_param n v d 10 (len_u32 v ltac:(assumption))); cbn [List.length] in Y;
        let x := fresh "x" in set (x := maybe_param n v d) in *; clearbody x end.
    cbn [List.length] in *. lia. }
  assert (V1 := len_show_vec N (lit "pt=") [] [c_comma] show_N (rid_formats r)).
  assert (K : sum (fun x => List.length (show_N x) + List.length [c_comma]) (rid_formats r) <= 7 * List.length (rid_formats r)).
  { apply sum_const. intros x I. rewrite Forall_forall in F. assert (X := len_u16 x (F x I)). cbn [List.length]. lia. }
  assert (V2 := len_vec_texts (lit "depends=") [] [c_comma] (rid_depends r) eq_refl).
  set (l := [show_vec (lit "pt=") [] [c_comma] show_N (rid_formats r); show_rid_params p; show_vec (lit "depends=") [] [c_comma] (fun s => s) (rid_depends r)]).
  assert (J := len_params l). unfold l in J at 2. rewrite !sum_cons, sum_nil in J. cbn [List.length sp] in *. unfold text in *.
  destruct (join [c_semi] (non_empty_vec l)) as [|c t]; [cbn [List.length]; lia|]. rewrite app_length. cbn [List.length sp] in *. lia.
Qed.
Lemma len_version : forall v, List.length (show_simulcast_version v) <= 3 * sum (fun i => text (sid_id i)) v.
Proof.
  intros v. unfold show_simulcast_version. assert (J := len_join [c_comma] (map show_simulcast_id v)). rewrite sum_map in J. cbn [List.length] in J.
  assert (K : sum (fun x => List.length (show_simulcast_id x) + 1) v <= 3 * sum (fun i => text (sid_id i)) v).
  { apply sum_scale. intros x _. unfold show_simulcast_id. rewrite app_length. unfold text. destruct (sid_paused x); cbn [List.length]; lia. }
  lia.
Qed.
Lemma len_simulcast : forall s, List.length (show_simulcast s) <= 20 + 3 * (simulcast_size (sim_send s) + simulcast_size (sim_receive s)).
Proof.
  intros s. unfold show_simulcast. set (l := [_; _]). assert (J := len_join sp (non_empty_vec l)).
  assert (F := sum_filter _ (fun s => List.length s + 1) non_empty l). unfold non_empty_vec in *. cbn [List.length sp] in J.
  unfold l in F at 2. rewrite !sum_cons, sum_nil in F.
  assert (V : forall pre v, List.length (show_vec pre [] [c_semi] show_simulcast_version v) <= List.length pre + 3 * simulcast_size v).
  { intros pre v. assert (X := len_show_vec _ pre [] [c_semi] show_simulcast_version v). cbn [List.length] in X.
    assert (K : sum (fun x => List.length (show_simulcast_version x) + 1) v <= 3 * simulcast_size v).
    { unfold simulcast_size. apply sum_scale. intros x _. assert (Y := len_version x). lia. }
    lia. }
  assert (V1 := V (lit "send ") (sim_send s)). assert (V2 := V (lit "recv ") (sim_receive s)). cbn [List.length] in *. lia.
Qed.
Lemma len_ssrc : forall s, u32 (ssrc_id s) -> List.length (show_ssrc s) <= 12 + ssrc_size s.
Proof.
  intros s H. unfold show_ssrc, ssrc_size. rewrite !app_length. assert (X := len_u32 _ H). assert (X1 := len_opt_text sp [] (ssrc_attribute s)).
  assert (X2 := len_opt_text [c_colon] [] (ssrc_value s)). cbn [List.length sp] in *. lia.
Qed.
Lemma len_attr_to_string : forall t s, List.length (attr_to_string t s) <= 19 + List.length s.
Proof.
  intros t s. unfold attr_to_string. destruct (is_empty s); [cbn; lia|]. rewrite !app_length.
  assert (L : List.length (show_attr_type t) <= 18) by (destruct t; cbn; lia). cbn [List.length]. lia.
Qed.
Lemma len_type : forall t, List.length (show_attr_type t) <= 18.
Proof. intros t. destruct t; cbn; lia. Qed.

Lemma len_attr : forall a, attr_range a -> List.length (show_attr a) <= 500 + m + (120 + 6 * m) * attr_size a.
Proof.
  assert (N : forall a b, List.length (a : str) <= 480 + m + (120 + 6 * m) * b -> forall t, List.length (attr_to_string t a) <= 500 + m + (120 + 6 * m) * b).
  { intros a b H t. assert (X := len_attr_to_string t a). lia. }
  intros a R. destruct a; cbn [show_attr attr_size attr_range] in *; try (eapply Nat.le_trans; [apply len_type|]; lia); try apply N.
  - assert (X := len_candidate _ R). lin.
  - destruct a; cbn [show_dtls_message]; rewrite app_length; cbn [List.length]; unfold text; lin.
  - unfold show_extmap. rewrite !app_length. assert (X1 := len_u16 _ R). assert (X2 := len_opt_text sp [] (ext_attributes a)).
    assert (X3 := len_opt _ [c_slash] show_direction [] (ext_direction a) 8 ltac:(intros [] _; cbn; lia)). cbn [List.length sp] in *. unfold text in *. lin.
  - destruct R as [R _]. unfold show_fingerprint. rewrite !app_length. assert (H : List.length (show_hash_type (fp_hash a)) <= 7) by (destruct (fp_hash a); cbn; lia).
    assert (J := len_join [c_colon] (map (fun b => pad0 2 (show_HEX b)) (fp_bytes a))). rewrite sum_map in J.
    assert (K : sum (fun x => List.length (pad0 2 (show_HEX x)) + List.length [c_colon]) (fp_bytes a) <= 4 * List.length (fp_bytes a)).
    { apply sum_const. intros x I. rewrite Forall_forall in R. rewrite (len_HEX x (R x I)). cbn [List.length]. lia. }
    cbn [List.length sp] in *. lin.
  - destruct R as [R1 R2]. assert (X := len_fmtp _ R1 R2). lin.
  - destruct R as [R _]. assert (X := f64_len _ R). lia.
  - unfold show_group. rewrite app_length. assert (X := len_vec_texts sp [] sp (grp_tags a) eq_refl).
    assert (H : List.length (show_group_semantic (grp_semantics a)) <= 6) by (destruct (grp_semantics a); cbn; lia). cbn [List.length sp] in *. lin.
  - assert (X := len_texts sp a eq_refl). lin.
  - assert (X := len_u64 a ltac:(lia)). lia.
  - unfold text. lin.
  - unfold text. lin.
  - unfold text. lin.
  - destruct R as (R1 & R2 & R3). assert (X := len_image_attr _ R1 R2 R3). lin.
  - unfold text. lin.
  - assert (X := len_u64 a R). lia.
  - assert (X := len_u64 a R). lia.
  - unfold text. lin.
  - unfold show_msid. rewrite app_length. assert (X := len_opt_text sp [] (msid_appdata a)). cbn [List.length sp] in *. unfold text in *. lin.
  - unfold show_msid_semantic. rewrite !app_length. assert (X := len_texts sp (ms_msids a) eq_refl).
    destruct (ms_msids a) as [|x l]; cbn [List.length sp] in *; unfold text in *; lin.
  - assert (X := len_u64 a R). lia.
  - assert (X := len_rid _ R). lin.
  - destruct R as (R1 & R2 & _). unfold show_remote_candidate. rewrite !app_length. assert (X1 := len_u32 _ R1). assert (X2 := len_u16 _ R2).
    assert (X3 := len_address (rc_address a)). cbn [List.length sp]. lin.
  - destruct R as (R1 & R2 & R3). unfold show_rtpmap. rewrite !app_length. assert (X1 := len_u8 _ ltac:(eapply N.le_trans; [exact R1|]; lia)). assert (X2 := len_u32 _ R2).
    assert (X3 := len_opt_N [c_slash] _ _ 10 R3 len_u32). cbn [List.length sp] in *. unfold text. lin.
  - destruct R as [R1 R2]. unfold show_rtcp. assert (X1 := len_u16 _ R1). destruct (rtcp_unicast_addr a) as [t|]; cbn [opt]; [|lia].
    rewrite !app_length. assert (X := len_typed t). cbn [List.length sp]. lin.
  - assert (X := len_rtcp_fb _ R). lin.
  - destruct R as [R1 R2]. unfold show_sctpmap. rewrite !app_length. assert (X1 := len_u16 _ R1). assert (X2 := len_u32 _ R2). cbn [List.length]. lia.
  - assert (X := len_u16 _ R). lia.
  - assert (H : List.length (show_setup a) <= 8) by (destruct a; cbn; lia). lia.
  - assert (X := len_simulcast a). lin.
  - assert (X := len_ssrc _ R). lin.
  - destruct R as [_ R]. rewrite !app_length. assert (X := len_attr_to_string TSsrcGroup (show_ssrc_group_semantic sem)).
    assert (H : List.length (show_ssrc_group_semantic sem) <= 6) by (destruct sem; cbn; lia).
    assert (J := len_join sp (map show_ssrc ssrcs)). rewrite sum_map in J.
    assert (K : sum (fun x => List.length (show_ssrc x) + List.length sp) ssrcs <= 15 * sum ssrc_size ssrcs).
    { apply sum_scale. intros x I. rewrite Forall_forall in R. assert (Y := len_ssrc x (R x I)). cbn [List.length sp]. lia. }
    cbn [List.length sp] in *. lin.
Qed.

(** Lines. *)
Definition factor : nat := 510 + 6 * m.
Lemma l_attr : forall a, attr_range a -> List.length (show_attr a) + 9 <= factor * S (attr_size a).
Proof. intros a R. assert (X := len_attr a R). unfold factor. lin. Qed.
Lemma l_bandwidth : forall b, item_range (TyBandwidth b) -> List.length (show_bandwidth b) + 9 <= factor * S (item_size (TyBandwidth b)).
Proof.
  intros b R. assert (F : 510 <= factor) by (unfold factor; lia). set (f := factor) in *. clearbody f.
  destruct b as [n|n|n|t n]; cbn [item_range item_size show_bandwidth] in *; rewrite !app_length; assert (X := len_u32 n R); cbn [List.length] in *; unfold text; nia.
Qed.
Lemma l_connection : forall c, item_range (TyConnection c) -> List.length (show_connection c) + 9 <= factor * S (item_size (TyConnection c)).
Proof.
  intros c (R1 & R2 & R3). assert (F : 510 <= factor) by (unfold factor; lia). set (f := factor) in *. clearbody f.
  cbn [item_size]. unfold show_connection. rewrite !app_length. assert (X1 := len_typed (conn_address c)).
  assert (X2 := len_opt_N [c_slash] _ _ 3 R2 len_u8). assert (X3 := len_opt_N [c_slash] _ _ 10 R3 len_u32). cbn [List.length] in *. nia.
Qed.
Lemma l_timing : forall t, item_range (TyTiming t) -> List.length (show_timing t) + 9 <= factor.
Proof.
  intros t [R1 R2]. unfold factor, show_timing. rewrite !app_length. assert (X1 := len_u64 _ R1). assert (X2 := len_u64 _ R2). cbn [List.length sp]. lia.
Qed.
Lemma l_origin : forall o, item_range (TyOrigin o) -> List.length (show_origin o) + 9 <= factor * S (item_size (TyOrigin o)).
Proof.
  intros o (R1 & R2 & R3). assert (F : 510 <= factor) by (unfold factor; lia). set (f := factor) in *. clearbody f.
  cbn [item_size]. unfold show_origin. rewrite !app_length. assert (X1 := len_u64 _ R1). assert (X2 := len_u64 _ R2). assert (X3 := len_typed (o_unicast_addr o)).
  cbn [List.length sp]. unfold text. nia.
Qed.
Lemma l_media : forall x, item_range (TyMedia x) -> List.length (show_media_line x) + 9 <= factor * S (item_size (TyMedia x)).
Proof.
  intros x (R1 & R2 & R3). assert (F : 510 <= factor) by (unfold factor; lia). set (f := factor) in *. clearbody f.
  cbn [item_size]. unfold show_media_line. rewrite !app_length. assert (X1 := len_u16 _ R1). assert (X2 := len_param [c_slash] (ml_port_count x) 0 10 (len_u32 _ R2)).
  assert (X3 : List.length (show_media_value (ml_media x)) <= 11) by (destruct (ml_media x); cbn; lia).
  assert (X4 : List.length (show_protocol_value (ml_proto x)) <= 18) by (destruct (ml_proto x); cbn; lia).
  assert (X5 : List.length (show_format_list (ml_formats x)) <= 12 * match ml_formats x with Integers l => List.length l | Strings l => sum text l end).
  { destruct (ml_formats x) as [l|l]; cbn [show_format_list].
    - assert (V := len_show_vec N [] [] sp show_N l). assert (K : sum (fun y => List.length (show_N y) + List.length sp) l <= 12 * List.length l).
      { apply sum_const. intros y I. assert (Q : Forall payload_listed l) by (destruct (ml_media x); tauto). rewrite Forall_forall in Q. specialize (Q y I).
        assert (Y := len_u8 y ltac:(unfold payload_listed in Q; lia)). cbn [List.length sp]. lia. }
      cbn [List.length] in *. lia.
    - assert (X := len_texts sp l eq_refl). lia. }
  cbn [List.length sp] in *. set (k := match ml_formats x with Integers l => List.length l | Strings l => sum text l end) in *. clearbody k. nia.
Qed.
Lemma sum_items : forall A (mk : A -> sdp_type) (show : A -> str) l, (forall x, item_range (mk x) -> List.length (show x) + 9 <= factor * S (item_size (mk x))) ->
  Forall item_range (map mk l) -> sum (fun x => List.length (show x) + 8) l <= factor * sum item_size (map mk l).
Proof.
  intros A mk show l H F. rewrite sum_map. apply (sum_scale A _ (fun x => item_size (mk x))). intros x I. rewrite Forall_forall in F.
  specialize (H x (F _ (in_map mk _ _ I))). lia.
Qed.
Lemma len_lines : forall A pre sep (show : A -> str) l, List.length pre = 2 -> List.length sep = 4 ->
  List.length (show_vec pre crlf sep show l) <= sum (fun x => List.length (show x) + 8) l.
Proof.
  intros A pre sep show l L1 L2. destruct l as [|x l]; [cbn; lia|]. assert (V := len_show_vec A pre crlf sep show (x :: l)).
  rewrite L1, L2 in V. rewrite sum_cons in *. assert (Q := sum_le A (fun x => List.length (show x) + 4) (fun x => List.length (show x) + 8) l ltac:(intros; cbn beta; lia)).
  cbn [List.length crlf] in V. lia.
Qed.
Lemma len_line : forall A pre (show : A -> str) o, List.length pre = 2 ->
  List.length (show_opt pre show crlf o) <= sum (fun x => List.length (show x) + 8) (of_option o).
Proof. intros A pre show [x|] L; cbn [show_opt of_option]; [|cbn; lia]. rewrite sum_one, !app_length, L. cbn [List.length crlf]. lia. Qed.

Lemma len_media : forall x, Forall item_range (media_items x) -> List.length (show_media x) <= factor * sum item_size (media_items x).
Proof.
  intros x F. unfold media_items in *. inversion F as [|y l R1 R2]; subst y l. apply Forall_app in R2. destruct R2 as [R2 R3]. apply Forall_app in R3. destruct R3 as [R3 R4].
  rewrite sum_cons, !sum_app. assert (X1 := l_media _ R1). unfold show_media. rewrite !app_length.
  assert (X2 := sum_items _ TyConnection show_connection _ l_connection R2). assert (X3 := sum_items _ TyBandwidth show_bandwidth _ l_bandwidth R3).
  assert (X4 := sum_items _ TyAttribute show_attr _ l_attr R4).
  assert (Y2 := len_line _ (lit "c=") show_connection (m_connection x) eq_refl). assert (Y3 := len_lines _ (lit "b=") (crlf ++ lit "b=") show_bandwidth (m_bandwidth x) eq_refl eq_refl).
  assert (Y4 := len_lines _ (lit "a=") (crlf ++ lit "a=") show_attr (m_attribute x) eq_refl eq_refl).
  rewrite !Nat.mul_add_distr_l. rewrite Nat.mul_succ_r in *. cbn [List.length crlf] in *. lia.
Qed.
Lemma len_session : forall s, Forall item_range (session_items s) -> text (show_session s) <= factor * session_size s.
Proof.
  intros s F. unfold session_size, session_items in *. inversion F as [|y l R1 R2]; subst y l. inversion R2 as [|y l R3 R4]; subst y l. clear F R2.
  apply Forall_app in R4. destruct R4 as [R4 R5]. apply Forall_app in R5. destruct R5 as [R5 R6]. apply Forall_app in R6. destruct R6 as [R6 R7]. apply Forall_app in R7. destruct R7 as [R7 R8].
  rewrite !sum_cons, !sum_app. cbn [item_size] in *.
  assert (X3 := l_origin _ R3). assert (X4 := sum_items _ TyTiming show_timing _ ltac:(intros t Ht; assert (Z := l_timing t Ht); cbn [item_size]; lia) R4).
  assert (X5 := sum_items _ TyConnection show_connection _ l_connection R5). assert (X6 := sum_items _ TyBandwidth show_bandwidth _ l_bandwidth R6).
  assert (X7 := sum_items _ TyAttribute show_attr _ l_attr R7).
  assert (Y4 := len_line _ (lit "t=") show_timing (s_timing s) eq_refl). assert (Y5 := len_line _ (lit "c=") show_connection (s_connection s) eq_refl).
  assert (Y6 := len_lines _ (lit "b=") (crlf ++ lit "b=") show_bandwidth (s_bandwidth s) eq_refl eq_refl).
  assert (Y7 := len_lines _ (lit "a=") (crlf ++ lit "a=") show_attr (s_attribute s) eq_refl eq_refl).
  assert (X8 : List.length (flat_map show_media (s_media s)) <= factor * sum item_size (flat_map media_items (s_media s))).
  { clear - R8 FW. induction (s_media s) as [|x l IH]; [cbn; lia|]. cbn [flat_map] in *. rewrite app_length, sum_app. apply Forall_app in R8. destruct R8 as [A B].
    assert (X := len_media x A). specialize (IH B). lia. }
  assert (Y1 : List.length (get_session_text s) <= 1 + opt text (s_session s)) by (unfold get_session_text; destruct (s_session s); cbn [opt]; unfold text; cbn; lia).
  cbn [item_range] in R1. unfold text at 1. unfold show_session. rewrite R1, !app_length. change (List.length (show_N 0)) with 1.
  assert (Fa : 510 <= factor) by (unfold factor; lia). cbn [item_size] in X3.
  set (f := factor) in *. clearbody f. repeat rewrite ?Nat.mul_add_distr_l, ?Nat.mul_succ_r in X3. repeat rewrite ?Nat.mul_add_distr_l, ?Nat.mul_succ_r.
  rewrite ?Nat.mul_add_distr_l. cbn [List.length crlf] in *.
  set (w := f * sum warning_size (s_warnings s)). assert (Y9 : opt text (s_session s) <= f * opt text (s_session s)) by nia. clearbody w. lia.
Qed.
End Within.

Lemma grow : forall (E : Ext) k m, ext_ok E -> 1 <= k -> names_grow_by k -> floats_within m -> forall sdp b s,
  parse_sdp sdp b = Ok s -> text (show_session s) <= (510 + 6 * m) * S k * text sdp.
Proof.
  intros E k m EO K1 KN FW sdp b s H. assert (A := session_range EO sdp b s H). assert (B := len_session m FW s A).
  assert (C := session_bound E k K1 KN sdp b s H). unfold factor in B. rewrite <- Nat.mul_assoc. eapply Nat.le_trans; [exact B|]. apply Nat.mul_le_mono_l. exact C.
Qed.

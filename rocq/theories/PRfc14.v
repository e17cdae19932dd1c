(** * Lemmas for C79: printed decimals and the rules of the RFCs *)
From Coq Require Import List NArith ZArith Bool Ascii String Lia.
From Coq Require Import ZifyBool ZifyNat ZifyN.
From Verif Require Import Str Num Net Types Ext Show Address AttrParse Media Session StrLemmas NumLemmas.
From Verif Require Import SpecApi SpecDoc SpecVal SpecPrint SpecGrammar SpecRfc SpecFloat SpecRfc2 SpecRfc3.
From Verif Require Import PRfc PRfc9 PFloat PFloat2 PFloat3 PFloat4 PRfc11 PRfc12.
Import ListNotations.
Open Scope N_scope.
Open Scope list_scope.

Lemma digit_dec : forall l, Forall digit l -> Forall dec l.
Proof. intros l H. eapply Forall_impl; [|exact H]. intros c [A B]. unfold dec. lia. Qed.
(** A tenth as many digits for the same number. *)
Lemma tenfold : forall d z, (z < 0)%Z -> scaled_num (10 * d) z * scaled_den (z + 1) = scaled_num d (z + 1) * scaled_den z.
Proof.
  intros d z H. unfold scaled_num, scaled_den. replace (Z.to_N z) with 0 by lia. replace (Z.to_N (z + 1)) with 0 by lia.
  replace (Z.to_N (- z)) with (N.succ (Z.to_N (- (z + 1)))) by lia. rewrite N.pow_succ_r'. lia.
Qed.
Lemma distance_scale : forall p w num den x k, distance p w (k * num) (k * den) x = (Z.of_N k * distance p w num den x)%Z.
Proof.
  intros p w num den x k. unfold distance. rewrite !N2Z.inj_mul. rewrite <- (Z.abs_eq (Z.of_N k)) at 3 by lia. rewrite <- Z.abs_mul. f_equal. ring.
Qed.
Lemma nearest_scale : forall p w num den x k, 0 < k -> nearest p w (k * num) (k * den) x <-> nearest p w num den x.
Proof.
  intros p w num den x k K. unfold nearest. split; intros [A B]; (split; [exact A|]); intros y Y; specialize (B y Y).
  - rewrite !distance_scale in B. nia.
  - rewrite !distance_scale. nia.
Qed.
Lemma last_digit : forall p w x d z, (z < 0)%Z -> 0 < d -> shortest p w x d z -> d mod 10 <> 0.
Proof.
  intros p w x d z Z P [N S] M. set (e := d / 10). assert (D : d = 10 * e) by (unfold e; lia).
  assert (N' : nearest p w (scaled_num e (z + 1)) (scaled_den (z + 1)) x).
  { apply (nearest_scale p w _ _ _ 10); [lia|]. rewrite D in N.
    replace (scaled_num (10 * e) z) with (10 * scaled_num e (z + 1)) in N by (unfold scaled_num; replace (Z.to_N z) with 0 by lia; replace (Z.to_N (z + 1)) with 0 by lia; lia).
    replace (scaled_den z) with (10 * scaled_den (z + 1)) in N; [exact N|].
    unfold scaled_den. replace (Z.to_N (- z)) with (N.succ (Z.to_N (- (z + 1)))) by lia. rewrite N.pow_succ_r'. reflexivity. }
  assert (H : forall n, e < 10 ^ n -> d < 10 ^ n) by (intros n L; exact (proj1 (S n e (z + 1)%Z L N'))).
  destruct (N.eq_dec e 0) as [Q|Q]; [lia|].
  assert (G : exists n, 10 ^ n <= e < 10 ^ N.succ n).
  { clear - Q. assert (B : exists k, e < 10 ^ N.of_nat k).
    { exists (N.to_nat e). rewrite N2Nat.id. apply N.pow_gt_lin_r. lia. }
    destruct B as [k B]. induction k as [|k IH]; [cbn in B; lia|].
    destruct (N.le_gt_cases (10 ^ N.of_nat k) e) as [L|L]; [|exact (IH L)].
    exists (N.of_nat k). split; [exact L|]. replace (N.succ (N.of_nat k)) with (N.of_nat (S k)) by lia. exact B. }
  destruct G as (n & G1 & G2). specialize (H _ G2). rewrite N.pow_succ_r' in H, G2. lia.
Qed.
Lemma number_nil : number [] = 0. Proof. reflexivity. Qed.
(** Integers, and decimals that do not end in a zero. *)
Lemma plain_shape : forall p w x t d z, 0 < x -> 0 < d -> plain_text t d z -> shortest p w x d z ->
  (exists c r, t = c :: r /\ 49 <= c <= 57 /\ Forall dec r /\ (0 <= z)%Z) \/
  (exists i f c, t = i ++ 46 :: f ++ [c] /\ (i = [48] \/ exists e r, i = e :: r /\ 49 <= e <= 57 /\ Forall dec r) /\
     Forall dec f /\ 49 <= c <= 57 /\ number (i ++ f ++ [c]) = d /\ z = (- Z.of_nat (List.length (f ++ [c])))%Z).
Proof.
  intros p w x t d z X D (i & f & I & F & C & [(Z & -> & -> & N)|(Z & -> & L & N)]) S.
  - left. destruct C as [->|(c & r & -> & C)].
    + exfalso. change (number [48]) with 0 in N. unfold scaled_num in N. pose proof (pow10 (Z.to_N z)). nia.
    + inversion I as [|? ? [I1 I2] I3]; subst. exists c, r. split; [reflexivity|]. split; [lia|]. split; [apply digit_dec, I3 | exact Z].
  - right. destruct (@exists_last _ f) as (f0 & c & ->).
    { intros ->. cbn in L. lia. }
    pose proof (last_digit p w x d z Z D S) as M. apply Forall_app in F. destruct F as [F1 F2]. inversion F2 as [|? ? [F3 F4] _]; subst.
    exists i, f0, c. split; [reflexivity|]. split.
    { destruct C as [->|(e & r & -> & C)]; [left; reflexivity|]. right. inversion I as [|? ? [I1 I2] I3]; subst. exists e, r.
      split; [reflexivity|]. split; [lia | apply digit_dec, I3]. }
    split; [apply digit_dec, F1|]. split; [|split; [reflexivity | lia]].
    rewrite app_assoc, number_snoc in M. split; [|exact F4]. destruct (N.eq_dec c 48) as [->|Q]; [|lia].
    exfalso. apply M. replace (10 * number (i ++ f0) + (48 - 48)) with (number (i ++ f0) * 10) by lia. apply N.mod_mul. lia.
Qed.
Lemma zero_nearest : forall p w den x, In (p, w) [(23, 8); (52, 11)] -> 0 < den -> nearest p w 0 den x -> x = 0.
Proof.
  intros p w den x F D N. refine (near_one p w 0 den x 0 F D N _). split; [apply N.le_0_l|]. intros y _.
  assert (M : magnitude p 0 = 0) by (unfold magnitude; destruct (0 <? 2 ^ p) eqn:Q; [reflexivity|]; apply N.ltb_ge in Q; pose proof (N.pow_nonzero 2 p); lia).
  unfold distance. rewrite M. split; [lia|]. intros _ _. reflexivity.
Qed.
Lemma shortest_pos : forall p w x d z, In (p, w) [(23, 8); (52, 11)] -> 0 < x -> shortest p w x d z -> 0 < d.
Proof.
  intros p w x d z F X [N _]. destruct (N.eq_dec d 0) as [->|Q]; [|lia]. exfalso. change (scaled_num 0 z) with 0 in N.
  apply zero_nearest in N; [lia | exact F | apply pow10].
Qed.
Lemma g_framerate_shape : forall t,
  (exists c r, t = c :: r /\ 49 <= c <= 57 /\ Forall dec r) \/
  (exists i f c, t = i ++ 46 :: f ++ [c] /\ (i = [48] \/ exists e r, i = e :: r /\ 49 <= e <= 57 /\ Forall dec r) /\ Forall dec f /\ 49 <= c <= 57) ->
  gen any_framerate t.
Proof.
  assert (P : forall c r, 49 <= c <= 57 -> Forall dec r -> gen (Cat posdec (Many (Chr dec))) (c :: r)).
  { intros c r C R. apply (gen_cat _ _ [c] r); [constructor; exact C | apply g_many, R]. }
  intros t [(c & r & -> & C & R)|(i & f & c & -> & I & F & C)].
  - apply gen_or_left, P; assumption.
  - apply gen_or_right. replace (i ++ 46 :: f ++ [c]) with (List.concat [i; [46]; f; [c]]) by (cbn [List.concat app]; rewrite ?app_nil_r; reflexivity).
    apply g_cats. constructor; [destruct I as [->|(e & r & -> & Ce & R)]; [apply gen_or_left; constructor | apply gen_or_right, P; assumption]|].
    constructor; [constructor|]. constructor; [apply g_many, F|]. constructor; [constructor; exact C | constructor].
Qed.
Lemma printed_shape : forall p w x s, In (p, w) [(23, 8); (52, 11)] -> 0 < x mod 2 ^ (p + w) -> x mod 2 ^ (p + w) < infinity p w -> printed_float p w x s ->
  exists t d z, plain_text t d z /\ shortest p w (x mod 2 ^ (p + w)) d z /\ 0 < d /\
    (x < 2 ^ (p + w) /\ s = t \/ 2 ^ (p + w) <= x /\ s = 45 :: t).
Proof.
  intros p w x s F X I [[N _]|[_ (sign & t & -> & P & S)]]; [lia|].
  destruct P as [[P _]|[[P _]|(_ & _ & d & z & P & Q)]]; [lia | lia |].
  exists t, d, z. split; [exact P|]. split; [exact Q|]. split; [exact (shortest_pos p w _ d z F X Q)|].
  destruct S as [[S ->]|[S ->]]; [left | right]; auto.
Qed.
Lemma framerate_start : forall t, gen any_framerate t -> exists c r, t = c :: r /\ 48 <= c.
Proof.
  assert (P : forall t, gen (Cat posdec (Many (Chr dec))) t -> exists c r, t = c :: r /\ 48 <= c).
  { intros t H. apply g_inv_cat in H. destruct H as (a & b & -> & A & _). apply g_posdec in A. destruct A as (c & -> & C). exists c, b. split; [reflexivity | lia]. }
  intros t H. apply g_inv_or in H. destruct H as [H|H]; [exact (P t H)|].
  apply g_inv_cat in H. destruct H as (a & b & -> & A & _). apply g_inv_or in A. destruct A as [A|A].
  - apply g_inv_lit in A. subst a. exists 48, b. split; [reflexivity | lia].
  - destruct (P a A) as (c & r & -> & C). exists c, (r ++ b). split; [reflexivity | exact C].
Qed.
Lemma printed_framerate : forall x s, 0 < x mod 2 ^ 63 -> x mod 2 ^ 63 < infinity 52 11 -> printed_float 52 11 x s ->
  (gen any_framerate s <-> positive64 x).
Proof.
  intros x s X I P. assert (F : In (52, 11) [(23, 8); (52, 11)]) by (right; left; reflexivity).
  destruct (printed_shape 52 11 x s F X I P) as (t & d & z & T & S & D & [[L ->]|[L ->]]).
  - split; [intros _; exact L|]. intros _. apply g_framerate_shape.
    destruct (plain_shape 52 11 _ t d z X D T S) as [(c & r & A & B & C & _)|(i & f & c & A & B & C & G & _)]; [left | right].
    + exists c, r. auto.
    + exists i, f, c. auto.
  - split.
    + intro G. apply framerate_start in G. destruct G as (c & r & Q & C). injection Q as <- _. lia.
    + intro Q. unfold positive64 in Q. change (2 ^ (52 + 11)) with (2 ^ 63) in L. lia.
Qed.
Section WithExt.
Context {E : Ext}.
Hypothesis St : std_floats E.
Lemma framerate_again : forall v n l, parse_sdp_line (lit "a=framerate:" ++ v) n = Ok l ->
  exists x, l_type l = TyAttribute (AFrameRate x) /\
    (gen (Cat (Lit "a=framerate:") any_framerate) (printed_line (l_type l)) <-> positive64 x).
Proof.
  intros v n l H. apply (framerate_lines St) in H. destruct H as (x & (sign & t & d & z & m & _ & _ & _ & M1 & M2 & S) & ->).
  exists x. split; [reflexivity|]. cbn [l_type]. change (printed_line (TyAttribute (AFrameRate x))) with (lit "a=" ++ show_attr (AFrameRate x)).
  assert (B : infinity 52 11 < 2 ^ 63) by (vm_compute; reflexivity).
  assert (X : x < 2 ^ 64 /\ x mod 2 ^ 63 = m).
  { change (2 ^ 64) with (2 * 2 ^ 63). destruct S as [[_ ->]|[[_ ->]|[_ ->]]]; (split; [lia|]); try (apply N.mod_small; lia).
    replace (2 ^ 63 + m) with (m + 1 * 2 ^ 63) by lia. rewrite N.mod_add by (vm_compute; discriminate). apply N.mod_small. lia. }
  destruct X as [X1 X2]. destruct (framerate_printed St x X1) as (s & P & Q). rewrite Q.
  rewrite <- (printed_framerate x s) by (rewrite ?X2; assumption). split.
  - intro G. apply g_inv_cat in G. destruct G as (a & b & K & A & G). apply g_inv_lit in A. subst a.
    change (of_string "a=framerate:") with (lit "a=framerate:") in K. change (lit "a=" ++ lit "framerate:" ++ s) with (lit "a=framerate:" ++ s) in K.
    apply app_inv_head in K. subst b. exact G.
  - intro G. change (lit "a=" ++ lit "framerate:" ++ s) with (of_string "a=framerate:" ++ s). apply gen_cat; [constructor | exact G].
Qed.
End WithExt.

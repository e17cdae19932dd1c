(** * Proofs: printed values are read back (C11), imageattr *)
From Coq Require Import List NArith ZArith Lia Bool Ascii String.
From Coq Require Import ZifyBool ZifyNat ZifyN.
From Verif Require Import Str Num Net Types Ext Show Address SpecApi SpecDoc SpecVal SpecItems SpecPrint.
From Verif Require Import StrLemmas NumLemmas NetLemmas PDoc4 PVal PVal2 PVal7 PVal8 PVal9 PVal10 PVal11 PPrint PPrint2 PPrint3 PPrint4 PPrint5 PPrint6 PPrint7.
Import ListNotations.
Open Scope N_scope.
Open Scope list_scope.

(** ** Bracket groups *)
Lemma balance_app : forall a b, balance (a ++ b) = (balance a + balance b)%Z.
Proof. intros a b. induction a as [|t a IH]; cbn -[weight]; [reflexivity|]. unfold balance in *. lia. Qed.
Lemma closed_one : forall t, weight t = 0%Z -> closed_group [t].
Proof. intros t H. exists [], t. split; [reflexivity|]. split; [apply open_nil|]. cbn -[weight]. lia. Qed.
Lemma closed_many : forall a mid b, weight a = 1%Z -> Forall (fun t => weight t = 0%Z) mid -> weight b = (-1)%Z ->
  closed_group (a :: mid ++ [b]).
Proof.
  intros a mid b A M B.
  assert (Z0 : forall l, Forall (fun t => weight t = 0%Z) l -> balance l = 0%Z).
  { intros l F. induction F as [|t l H F IH]; [reflexivity|]. cbn -[weight]. unfold balance in IH. lia. }
  exists (a :: mid), b. split; [reflexivity|]. split.
  - intros p q Eq Np. destruct p as [|x p]; [congruence|]. cbn [app] in Eq. inversion Eq; subst x mid.
    apply Forall_app in M. destruct M as [M _]. cbn -[weight]. change (fold_right _ 0%Z p) with (balance p).
    rewrite (Z0 p M). lia.
  - change (a :: mid ++ [b]) with ([a] ++ mid ++ [b]). rewrite !balance_app, (Z0 mid M). cbn -[weight]. lia.
Qed.
Lemma weight_plain : forall t, ~ In 91 t -> ~ In 93 t -> weight t = 0%Z.
Proof.
  intros t A B. unfold weight. rewrite (proj2 (contains_not_In 91 t) A), (proj2 (contains_not_In 93 t) B). reflexivity.
Qed.
Lemma weight_both : forall t, In 91 t -> In 93 t -> weight t = 0%Z.
Proof.
  intros t A B. unfold weight. rewrite (proj2 (contains_In 91 t) A), (proj2 (contains_In 93 t) B). reflexivity.
Qed.
Lemma weight_open : forall t, In 91 t -> ~ In 93 t -> weight t = 1%Z.
Proof.
  intros t A B. unfold weight. rewrite (proj2 (contains_In 91 t) A), (proj2 (contains_not_In 93 t) B). reflexivity.
Qed.
Lemma weight_close : forall t, ~ In 91 t -> In 93 t -> weight t = (-1)%Z.
Proof.
  intros t A B. unfold weight. rewrite (proj2 (contains_not_In 91 t) A), (proj2 (contains_In 93 t) B). reflexivity.
Qed.
Lemma join_concat : forall sep ls, Forall (fun l => l <> []) ls -> join sep (map (join sep) ls) = join sep (List.concat ls).
Proof.
  intros sep ls F. induction F as [|b ls Hb F IH]; [reflexivity|]. cbn [map List.concat].
  destruct F as [|c ls Hc F]; [cbn [map List.concat]; rewrite app_nil_r; reflexivity|].
  rewrite join_cons by discriminate. rewrite IH. rewrite join_app; [reflexivity | exact Hb|].
  cbn [List.concat]. destruct c; [congruence | discriminate].
Qed.
(** A text made of pieces that form a group. *)
Definition grouped (sep : N) (t : str) : Prop :=
  exists g, closed_group g /\ Forall (fun x => ~ In sep x) g /\ join [sep] g = t.
Lemma grouped_tokens : forall sep l, l <> [] -> Forall (grouped sep) l -> bracket_tokens sep (join [sep] l) l.
Proof.
  intros sep l N0 F.
  assert (exists gs, map (join [sep]) gs = l /\ Forall closed_group gs /\ Forall (fun x => ~ In sep x) (List.concat gs))
    as (gs & E1 & E2 & E3).
  { clear N0. induction F as [|t l (g & G1 & G2 & G3) F (gs & E1 & E2 & E3)].
    - exists []. split; [reflexivity|]. split; constructor.
    - exists (g :: gs). cbn [map List.concat]. split; [congruence|]. split; [constructor; assumption|]. apply Forall_app. auto. }
  assert (Ne : Forall (fun g : list str => g <> []) gs).
  { eapply Forall_impl; [|exact E2]. intros g. apply closed_nonempty. }
  exists gs, []. rewrite app_nil_r. split; [|split; [exact E2 | split; [apply open_nil | congruence]]].
  rewrite <- E1, join_concat by exact Ne. apply fields_join; [|exact E3].
  destruct gs as [|g gs]; [cbn in E1; congruence|]. inversion Ne. cbn [List.concat]. destruct g; [congruence | discriminate].
Qed.
Lemma grouped_one : forall sep t, ~ In sep t -> weight t = 0%Z -> grouped sep t.
Proof. intros sep t H W. exists [t]. split; [apply closed_one, W|]. split; [repeat constructor; exact H | reflexivity]. Qed.
Definition plain (t : str) : Prop := ~ In 44 t /\ ~ In 91 t /\ ~ In 93 t.
Lemma plain_app : forall a b, plain a -> plain b -> plain (a ++ b).
Proof. intros a b (A1 & A2 & A3) (B1 & B2 & B3). split; [|split]; intro K; apply in_app_or in K; tauto. Qed.
Lemma braced_group : forall pre inner, plain pre -> plain inner -> grouped 44 (pre ++ [91] ++ inner ++ [93]).
Proof.
  intros pre inner (A1 & A2 & A3) (B1 & B2 & B3). apply grouped_one.
  - intro K. apply in_app_or in K. destruct K as [K|K]; [tauto|]. cbn [app] in K. destruct K as [K|K]; [discriminate|].
    apply in_app_or in K. destruct K as [K|[K|[]]]; [tauto | discriminate].
  - apply weight_both.
    + apply in_or_app. right. now left.
    + apply in_or_app. right. cbn [app]. right. apply in_or_app. right. now left.
Qed.
Lemma discrete_group : forall {A} (show : A -> str) pre l, plain pre -> (forall x, plain (show x)) -> l <> [] ->
  grouped 44 (pre ++ show_discrete show l).
Proof.
  intros A show pre l P S N0. destruct l as [|x [|y l]]; [congruence| |].
  - cbn [show_discrete]. destruct (plain_app _ _ P (S x)) as (A1 & A2 & A3). apply grouped_one; [exact A1|].
    apply weight_plain; assumption.
  - set (l' := y :: l). assert (N1 : l' <> []) by discriminate.
    assert (T : show_discrete show (x :: l') = [91] ++ join [44] (map show (x :: l')) ++ [93]) by reflexivity.
    rewrite T. destruct (exists_last N1) as (mid & z & El). rewrite El.
    exists ((pre ++ [91] ++ show x) :: map show mid ++ [show z ++ [93]]). split; [|split].
    + destruct P as (P1 & P2 & P3). destruct (S x) as (X1 & X2 & X3). destruct (S z) as (Z1 & Z2 & Z3). apply closed_many.
      * apply weight_open; [apply in_or_app; right; now left|]. intro K. apply in_app_or in K. destruct K as [K|[K|K]]; [tauto | discriminate | tauto].
      * apply Forall_forall. intros t Ht. apply in_map_iff in Ht. destruct Ht as (w & <- & _). apply weight_plain; apply S.
      * apply weight_close; [|apply in_or_app; right; now left]. intro K. apply in_app_or in K. destruct K as [K|[K|[]]]; [tauto | discriminate].
    + destruct P as (P1 & P2 & P3). destruct (S x) as (X1 & X2 & X3). destruct (S z) as (Z1 & Z2 & Z3). constructor; [|apply Forall_app; split].
      * intro K. apply in_app_or in K. destruct K as [K|[K|K]]; [tauto | discriminate | tauto].
      * apply Forall_forall. intros t Ht. apply in_map_iff in Ht. destruct Ht as (w & <- & _). apply S.
      * constructor; [|constructor]. intro K. apply in_app_or in K. destruct K as [K|[K|[]]]; [tauto | discriminate].
    + cbn [map]. rewrite map_app. cbn [map].
      assert (Q : forall (m : list str) w, join [44] (m ++ [w ++ [93]]) = join [44] (m ++ [w]) ++ [93]).
      { intros m w. destruct m as [|a m]; [reflexivity|]. rewrite !join_app by discriminate. cbn [join].
        rewrite <- !app_assoc. reflexivity. }
      rewrite !join_cons by (intro K; apply app_eq_nil in K; destruct K; discriminate). rewrite Q.
      rewrite <- !app_assoc. reflexivity.
Qed.

Section WithExt.
Context {E : Ext}.
Context (X : ext_ok E).

(** ** Ranges *)
Lemma plain_N : forall n, plain (show_N n).
Proof. intro n. split; [|split]; apply not_in_N; reflexivity. Qed.
Lemma f32_no : forall c x, float_char c = false -> ~ In c (show_f32 x).
Proof.
  intros c x H K. destruct (f32_show_chars E X x) as [_ F]. rewrite forallb_forall in F. specialize (F c K). congruence.
Qed.
Lemma plain_f32 : forall x, plain (show_f32 x).
Proof. intro n. split; [|split]; apply f32_no; reflexivity. Qed.
Lemma plain_b : forall t, negb (contains 44 t) && negb (contains 91 t) && negb (contains 93 t) = true -> plain t.
Proof.
  intros t H. apply andb_prop in H. destruct H as [H C]. apply andb_prop in H. destruct H as [A B].
  split; [|split]; apply not_in_b; [destruct (contains 44 t) | destruct (contains 91 t) | destruct (contains 93 t)]; congruence || reflexivity || discriminate.
Qed.
Lemma discrete_value : forall l, l <> [] -> Forall u32 l -> xy_value (show_discrete show_N l) (XyDiscrete l).
Proof.
  intros l N0 F. destruct l as [|x [|y l]]; [congruence| |].
  - left. exists x. inversion F; subst. split; [apply numeral_printed; assumption | reflexivity].
  - right. exists (join [44] (map show_N (x :: y :: l))). split; [reflexivity|]. right. right.
    exists (map show_N (x :: y :: l)), (x :: y :: l). split; [|split; [|split; [cbn [List.length]; lia | reflexivity]]].
    + apply fields_join; [discriminate|]. apply Forall_forall. intros t Ht. apply in_map_iff in Ht. destruct Ht as (n & <- & _).
      apply not_in_N. reflexivity.
    + clear N0. induction F as [|n r H F IH]; [constructor|]. cbn [map]. constructor; [apply numeral_printed, H | exact IH].
Qed.
Lemma xy_printed : forall r pre, xy_range_range r -> plain pre ->
  xy_value (show_xy_range r) r /\ grouped 44 (pre ++ show_xy_range r).
Proof.
  intros [a b s|l] pre R P.
  - destruct R as (R1 & R2 & R3). split.
    + right. exists (show_N a ++ [58] ++ show_opt [] show_N [58] s ++ show_N b). split.
      { unfold braced. cbn [show_xy_range]. unfold c_lbr, c_rbr, c_colon. rewrite <- !app_assoc. reflexivity. }
      destruct s as [s|].
      * left. exists (show_N a), (show_N s), (show_N b), a, b, s. split.
        { cbn [show_opt]. cbn [app]. rewrite <- app_assoc. cbn [app].
          apply fields_more; [apply not_in_N; reflexivity|]. apply fields_more; [apply not_in_N; reflexivity|].
          apply fields_last, not_in_N. reflexivity. }
        split; [apply numeral_printed, R1|]. split; [apply numeral_printed, R3|]. split; [apply numeral_printed, R2 | reflexivity].
      * right. left. exists (show_N a), (show_N b), a, b. split.
        { cbn [show_opt]. cbn [app].
          apply fields_more; [apply not_in_N; reflexivity|]. apply fields_last, not_in_N. reflexivity. }
        split; [apply numeral_printed, R1|]. split; [apply numeral_printed, R2 | reflexivity].
    + cbn [show_xy_range].
      assert (K : plain (show_N a ++ [c_colon] ++ show_opt [] show_N [c_colon] s ++ show_N b)).
      { apply plain_app; [apply plain_N|]. apply plain_app; [apply plain_b; reflexivity|]. apply plain_app; [|apply plain_N].
        destruct s; [|apply plain_b; reflexivity]. cbn [show_opt]. apply plain_app; [apply plain_b; reflexivity|].
        apply plain_app; [apply plain_N | apply plain_b; reflexivity]. }
      pose proof (braced_group pre _ P K) as G. rewrite <- !app_assoc in G. exact G.
  - destruct R as [R1 R2]. split; [apply discrete_value; assumption|].
    apply discrete_group; [exact P | apply plain_N | exact R1].
Qed.
Lemma f32_pos_no : forall x, f_neg 31 x = false -> ~ In 45 (show_f32 x).
Proof. intros x H. apply not_in_b, (f32_show_pos E X), H. Qed.
Lemma float_range_printed : forall x y, u32 x -> u32 y -> f_neg 31 x = false -> f_neg 31 y = false ->
  f32_is_nan x = false -> f32_is_nan y = false -> f32_ge x y = false -> float_range (show_f32 x ++ [45] ++ show_f32 y) x y.
Proof.
  intros x y R1 R2 P1 P2 N1 N2 G. exists (show_f32 x), (show_f32 y). split.
  - cbn [app]. apply fields_more; [apply f32_pos_no, P1 | apply fields_last, f32_pos_no, P2].
  - split; [apply (f32_roundtrip E X); assumption|]. split; [apply (f32_roundtrip E X); assumption | exact G].
Qed.
Lemma ge_pos : forall x y, f32_ge x y = false -> f32_is_nan x = false -> f32_is_nan y = false -> f_neg 31 x = false ->
  f_neg 31 y = false.
Proof.
  intros x y G Nx Ny Px. unfold f32_ge, f_key in G. rewrite Nx, Ny, Px in G. cbn [negb andb] in G.
  destruct (f_neg 31 y); [|reflexivity]. exfalso. lia.
Qed.
Lemma ascends_pos : forall l x, ascends x l -> f32_is_nan x = false -> f_neg 31 x = false ->
  Forall (fun y => f32_is_nan y = false) l -> Forall (fun y => f_neg 31 y = false) l.
Proof.
  induction l as [|y l IH]; intros x A Nx Px F; [constructor|]. destruct A as [A1 A2]. inversion F; subst.
  pose proof (ge_pos _ _ A1 Nx H1 Px). constructor; [assumption|]. apply (IH y); assumption.
Qed.
Lemma sar_printed : forall r pre, plain pre ->
  match r with SRange a b => u32 a /\ u32 b /\ f32_ge a b = false | SDiscrete l => l <> [] /\ Forall u32 l end ->
  match r with SRange a b => f_neg 31 a = false /\ f_neg 31 b = false | SDiscrete (y :: z :: l) => ascends 0 (y :: z :: l) | _ => True end ->
  match r with SRange a b => f32_is_nan a = false /\ f32_is_nan b = false | SDiscrete l => Forall (fun y => f32_is_nan y = false) l end ->
  sar_value (show_s_range r) (Some r) /\ grouped 44 (pre ++ show_s_range r).
Proof.
  intros [a b|l] pre P R W Nn.
  - destruct R as (R1 & R2 & R3), W as [W1 W2], Nn as [N1 N2]. split.
    + right. exists (show_f32 a ++ [45] ++ show_f32 b). split.
      { unfold braced. cbn [show_s_range]. unfold c_lbr, c_rbr, c_minus. rewrite <- !app_assoc. reflexivity. }
      left. split; [apply in_or_app; right; now left|]. exists a, b. split; [apply float_range_printed; assumption | reflexivity].
    + cbn [show_s_range].
      assert (K : plain (show_f32 a ++ [c_minus] ++ show_f32 b)).
      { apply plain_app; [apply plain_f32|]. apply plain_app; [apply plain_b; reflexivity | apply plain_f32]. }
      pose proof (braced_group pre _ P K) as G. rewrite <- !app_assoc in G. exact G.
  - destruct R as [R1 R2]. split; [|apply discrete_group; [exact P | apply plain_f32 | exact R1]]. cbn [show_s_range].
    destruct l as [|x [|y l]]; [congruence| |].
    + left. cbn [show_discrete]. inversion R2; subst. inversion Nn; subst. split.
      * intros t K. destruct (plain_f32 x) as (_ & A & _). rewrite K in A. apply A. now left.
      * exists x. split; [apply (f32_roundtrip E X); assumption | reflexivity].
    + right. exists (join [44] (map show_f32 (x :: y :: l))). split; [reflexivity|]. right. left.
      pose proof (ascends_pos _ _ W eq_refl eq_refl Nn) as Pp. split; [|split].
      * apply join_no; [intros [K|[]]; discriminate|]. apply Forall_forall. intros t Ht. apply in_map_iff in Ht.
        destruct Ht as (z & <- & Hz). apply f32_pos_no, (Forall_in _ _ _ Pp Hz).
      * cbn [map]. rewrite join_leads. apply in_or_app. right. now left.
      * exists (map show_f32 (x :: y :: l)), (x :: y :: l). split; [|split; [|split; [exact W | reflexivity]]].
        -- apply fields_join; [discriminate|]. apply Forall_forall. intros t Ht. apply in_map_iff in Ht.
           destruct Ht as (z & <- & _). apply f32_no. reflexivity.
        -- clear -X R2 Nn. induction R2 as [|z r H R2 IH]; [constructor|]. inversion Nn; subst. cbn [map].
           constructor; [apply (f32_roundtrip E X); assumption | apply IH; assumption].
Qed.
Lemma par_printed : forall r pre, plain pre -> u32 (par_min r) /\ u32 (par_max r) /\ f32_ge (par_min r) (par_max r) = false ->
  f_neg 31 (par_min r) = false /\ f_neg 31 (par_max r) = false ->
  f32_is_nan (par_min r) = false -> f32_is_nan (par_max r) = false ->
  par_value (show_p_range r) r /\ grouped 44 (pre ++ show_p_range r).
Proof.
  intros r pre P (R1 & R2 & R3) [W1 W2] N1 N2. split.
  - exists (show_f32 (par_min r) ++ [45] ++ show_f32 (par_max r)). split.
    + unfold braced, show_p_range, c_lbr, c_rbr, c_minus. rewrite <- !app_assoc. reflexivity.
    + apply float_range_printed; assumption.
  - assert (K : plain (show_f32 (par_min r) ++ [c_minus] ++ show_f32 (par_max r))).
    { apply plain_app; [apply plain_f32|]. apply plain_app; [apply plain_b; reflexivity | apply plain_f32]. }
    pose proof (braced_group pre _ P K) as G. rewrite <- !app_assoc in G. exact G.
Qed.

(** ** Sets *)
Definition set_options (x : image_set) : list str :=
  map (fun r => lit "sar=" ++ show_s_range r) (of_option (set_sar x)) ++
  map (fun r => lit "par=" ++ show_p_range r) (of_option (set_par x)) ++
  map (fun q => lit "q=" ++ show_f32 q) (of_option (set_q x)).
Definition set_tokens (x : image_set) : list str :=
  (lit "x=" ++ show_xy_range (set_x x)) :: (lit "y=" ++ show_xy_range (set_y x)) :: set_options x.
Lemma opt_leads44 : forall {A} pre name (f : A -> str) o, pre = 44 :: name ->
  show_opt pre f [] o = leads 44 (map (fun r => name ++ f r) (of_option o)).
Proof.
  intros A pre name f [x|] ->; [|reflexivity]. cbn. unfold leads. cbn [flat_map]. rewrite !app_nil_r. reflexivity.
Qed.
Lemma set_text : forall x, show_image_set x = [91] ++ join [44] (set_tokens x) ++ [93].
Proof.
  intro x. unfold show_image_set, set_tokens. rewrite join_leads. unfold set_options.
  assert (L : forall a b, leads 44 (a :: b) = 44 :: a ++ leads 44 b) by reflexivity.
  rewrite L, !leads_app.
  rewrite <- (opt_leads44 (lit ",sar=") (lit "sar=")) by reflexivity.
  rewrite <- (opt_leads44 (lit ",par=") (lit "par=")) by reflexivity.
  rewrite <- (opt_leads44 (lit ",q=") (lit "q=")) by reflexivity.
  rewrite <- !app_assoc. cbn [app]. rewrite <- !app_assoc. reflexivity.
Qed.
Lemma prefixed_others : forall prefix l, Forall (fun t => forall v, t <> prefix ++ v) l -> prefixed prefix l [].
Proof. intros prefix l F. induction F; constructor; assumption. Qed.
Lemma prefixed_app : forall prefix a b x y, prefixed prefix a x -> prefixed prefix b y -> prefixed prefix (a ++ b) (x ++ y).
Proof. intros prefix a b x y A B. induction A; cbn [app]; [exact B | constructor; assumption..]. Qed.
Lemma prefixed_map : forall {A} prefix (f : A -> str) l, prefixed prefix (map (fun r => prefix ++ f r) l) (map f l).
Proof. intros A prefix f l. induction l; constructor; assumption. Qed.
Lemma Forall_map_in : forall {A B} (P : B -> Prop) (f : A -> B) l, (forall x, In x l -> P (f x)) -> Forall P (map f l).
Proof. intros A B P f l H. apply Forall_forall. intros y Hy. apply in_map_iff in Hy. destruct Hy as (x & <- & Hx). auto. Qed.
Lemma set_printed : forall x, image_set_range x -> image_set_wf x -> ~ set_nan x -> image_set_value (show_image_set x) x.
Proof.
  intros x (R1 & R2 & R3 & R4 & R5) [W1 W2] L.
  assert (Px : plain (lit "x=")) by (apply plain_b; reflexivity). assert (Py : plain (lit "y=")) by (apply plain_b; reflexivity).
  destruct (xy_printed (set_x x) _ R1 Px) as [X1 X2]. destruct (xy_printed (set_y x) _ R2 Py) as [Y1 Y2].
  assert (S : forall r, set_sar x = Some r -> sar_value (show_s_range r) (Some r) /\ grouped 44 (lit "sar=" ++ show_s_range r)).
  { intros r K. rewrite K in R3, W1. apply sar_printed; [apply plain_b; reflexivity | destruct r; exact R3 | destruct r; exact W1|].
    unfold set_nan in L. rewrite K in L. destruct r as [a b|l].
    - split; [destruct (f32_is_nan a) eqn:Q | destruct (f32_is_nan b) eqn:Q]; try reflexivity; elim L; left; auto.
    - apply Forall_forall. intros y Hy. destruct (f32_is_nan y) eqn:Q; [|reflexivity]. elim L. left. apply Exists_exists. eauto. }
  assert (P : forall r, set_par x = Some r -> par_value (show_p_range r) r /\ grouped 44 (lit "par=" ++ show_p_range r)).
  { intros r K. rewrite K in R4, W2. unfold set_nan in L. rewrite K in L. apply par_printed; [apply plain_b; reflexivity | exact R4 | exact W2| |].
    - destruct (f32_is_nan (par_min r)) eqn:Q; [elim L; auto | reflexivity].
    - destruct (f32_is_nan (par_max r)) eqn:Q; [elim L; auto | reflexivity]. }
  assert (Q : forall q, set_q x = Some q -> parse_f32 (show_f32 q) = Ok q /\ grouped 44 (lit "q=" ++ show_f32 q)).
  { intros q K. rewrite K in R5. unfold set_nan in L. rewrite K in L. split.
    - apply (f32_roundtrip E X); [exact R5|]. destruct (f32_is_nan q); [elim L; auto | reflexivity].
    - pose proof (discrete_group show_f32 (lit "q=") [q] (plain_b (lit "q=") eq_refl) plain_f32 ltac:(discriminate)) as G. exact G. }
  exists (join [44] (set_tokens x)), (show_xy_range (set_x x)), (show_xy_range (set_y x)), (set_options x).
  split; [apply set_text|]. split.
  { apply (grouped_tokens 44 (set_tokens x)); [discriminate|]. unfold set_tokens. constructor; [exact X2|]. constructor; [exact Y2|].
    unfold set_options. apply Forall_app. split; [|apply Forall_app; split]; apply Forall_map_in; intros r Hr.
    - destruct (set_sar x); [|destruct Hr]; destruct Hr as [<-|[]]. apply S. reflexivity.
    - destruct (set_par x); [|destruct Hr]; destruct Hr as [<-|[]]. apply P. reflexivity.
    - destruct (set_q x); [|destruct Hr]; destruct Hr as [<-|[]]. apply Q. reflexivity. }
  split; [exact X1|]. split; [exact Y1|].
  unfold set_options. split; [|split].
  - exists (map show_s_range (of_option (set_sar x))), (map Some (of_option (set_sar x))). split; [|split].
    + rewrite <- (app_nil_r (map show_s_range _)). apply prefixed_app; [apply prefixed_map|]. apply prefixed_others.
      apply Forall_app. split; apply Forall_map_in; intros; discriminate.
    + destruct (set_sar x); [|constructor]. constructor; [apply S; reflexivity | constructor].
    + destruct (set_sar x); reflexivity.
  - exists (map show_p_range (of_option (set_par x))), (of_option (set_par x)). split; [|split].
    + change (map show_p_range (of_option (set_par x))) with ([] ++ map show_p_range (of_option (set_par x))).
      apply prefixed_app; [apply prefixed_others, Forall_map_in; intros; discriminate|].
      rewrite <- (app_nil_r (map show_p_range _)). apply prefixed_app; [apply prefixed_map|].
      apply prefixed_others, Forall_map_in; intros; discriminate.
    + destruct (set_par x); [|constructor]. constructor; [apply P; reflexivity | constructor].
    + destruct (set_par x); reflexivity.
  - exists (map show_f32 (of_option (set_q x))), (of_option (set_q x)). split; [|split].
    + change (map show_f32 (of_option (set_q x))) with ([] ++ [] ++ map show_f32 (of_option (set_q x))).
      apply prefixed_app; [apply prefixed_others, Forall_map_in; intros; discriminate|].
      apply prefixed_app; [apply prefixed_others, Forall_map_in; intros; discriminate|]. apply prefixed_map.
    + destruct (set_q x); [|constructor]. constructor; [apply Q; reflexivity | constructor].
    + destruct (set_q x); reflexivity.
Qed.

(** ** The attribute *)
Lemma not_in_app : forall c (a b : str), ~ In c a -> ~ In c b -> ~ In c (a ++ b).
Proof. intros c a b A B K. apply in_app_or in K. tauto. Qed.
Lemma not_in_opt : forall {A} c pre (f : A -> str) suf o, ~ In c pre -> (forall x, ~ In c (f x)) -> ~ In c suf -> ~ In c (show_opt pre f suf o).
Proof. intros A c pre f suf [x|] P F S; [|intros []]. cbn. apply not_in_app; [exact P|]. apply not_in_app; [apply F | exact S]. Qed.
Lemma not_in_discrete : forall {A} c (f : A -> str) l, c <> 91 -> c <> 93 -> c <> 44 -> (forall x, ~ In c (f x)) -> ~ In c (show_discrete f l).
Proof.
  intros A c f l H1 H2 H3 F.
  assert (G : ~ In c ([91] ++ join [44] (map f l) ++ [93])).
  { apply not_in_app; [intros [K|[]]; congruence|]. apply not_in_app; [|intros [K|[]]; congruence].
    apply join_no; [intros [K|[]]; congruence|]. apply Forall_map_in. auto. }
  destruct l as [|x [|y l]]; [exact G | apply F | exact G].
Qed.
Lemma not_in_set : forall x, ~ In 32 (show_image_set x).
Proof.
  assert (S : forall c, c <> 32 -> ~ In 32 [c]) by (intros c H [K|[]]; congruence).
  assert (XY : forall r, ~ In 32 (show_xy_range r)).
  { intros [a b s|l]; cbn [show_xy_range].
    - repeat apply not_in_app; try (apply not_in_N; reflexivity); try (apply S; discriminate).
      apply not_in_opt; [intros [] | intro; apply not_in_N; reflexivity | apply S; discriminate].
    - apply not_in_discrete; try discriminate. intro. apply not_in_N. reflexivity. }
  intro x. unfold show_image_set. repeat apply not_in_app; try (apply not_in_b; reflexivity); try apply XY.
  - apply not_in_opt; [apply not_in_b; reflexivity | | intros []]. intros [a b|l]; cbn [show_s_range].
    + repeat apply not_in_app; try (apply f32_no; reflexivity); apply S; discriminate.
    + apply not_in_discrete; try discriminate. intro. apply f32_no. reflexivity.
  - apply not_in_opt; [apply not_in_b; reflexivity | | intros []]. intro r. unfold show_p_range.
    repeat apply not_in_app; try (apply f32_no; reflexivity); apply S; discriminate.
  - apply not_in_opt; [apply not_in_b; reflexivity | | intros []]. intro r. apply f32_no; reflexivity.
Qed.
Definition list_pieces (l : image_set_list) : list str :=
  match l with Sets s => map show_image_set s | SetsWildcard => [lit "*"] end.
Definition part_pieces (name : str) (l : image_set_list) : list str :=
  match l with Sets [] => [] | _ => name :: list_pieces l end.
Lemma part_text : forall pre name l, pre = 32 :: name ++ [32] ->
  show_opt pre show_image_set_list [] (maybe_sets l) = leads 32 (part_pieces name l).
Proof.
  intros pre name l ->. assert (C : forall a b, leads 32 (a :: b) = 32 :: a ++ leads 32 b) by reflexivity.
  destruct l as [[|x l]|]; [reflexivity| |].
  - cbn [maybe_sets show_opt part_pieces list_pieces]. rewrite C. rewrite app_nil_r. cbn [show_image_set_list map].
    unfold sp, c_space. rewrite join_leads, C. cbn [app]. rewrite <- !app_assoc. reflexivity.
  - cbn [maybe_sets show_opt part_pieces list_pieces show_image_set_list]. rewrite C, app_nil_r. cbn [app]. rewrite <- !app_assoc. reflexivity.
Qed.
Lemma image_text : forall a, show_image_attr a =
  join [32] (show_payload_type (img_pt a) :: part_pieces (lit "send") (img_send a) ++ part_pieces (lit "recv") (img_recv a)).
Proof.
  intro a. unfold show_image_attr. rewrite (part_text _ (lit "send")), (part_text _ (lit "recv")) by reflexivity.
  rewrite join_leads, leads_app. reflexivity.
Qed.
Definition list_nan (l : image_set_list) : Prop := match l with Sets l => Exists set_nan l | SetsWildcard => False end.
Lemma list_printed : forall l, l <> Sets [] -> image_list_range l -> image_list_wf l -> ~ list_nan l ->
  image_list_value (list_pieces l) l /\ Forall (grouped 32) (list_pieces l) /\
  exists x t, list_pieces l = x ++ [t] /\ ends_solid t.
Proof.
  intros [l|] N0 R W L; [|split; [left; split; reflexivity|]].
  - assert (N1 : l <> []) by congruence. cbn [list_pieces]. split; [right; split|split].
    + destruct l; [congruence | discriminate].
    + exists l. split; [|reflexivity]. cbn [image_list_range image_list_wf list_nan] in R, W, L. clear N0 N1.
      induction R as [|x l Rx R IH]; [constructor|]. inversion W; subst. cbn [map].
      constructor; [apply set_printed; try assumption; intro K; apply L; now left | apply IH; [assumption | intro K; apply L; now right]].
    + apply Forall_map_in. intros x _. apply grouped_one; [apply not_in_set|]. rewrite set_text. apply weight_both.
      * now left.
      * cbn [app]. right. apply in_or_app. right. now left.
    + destruct (exists_last N1) as (x & y & ->). rewrite map_app. cbn [map]. exists (map show_image_set x), (show_image_set y).
      split; [reflexivity|]. rewrite set_text. apply ends_app, ends_app. exists 93, []. split; reflexivity.
  - cbn [list_pieces]. split; [constructor; [|constructor]|].
    + apply grouped_one; [apply not_in_b; reflexivity | reflexivity].
    + exists [], (lit "*"). split; [reflexivity|]. exists 42, []. split; reflexivity.
Qed.
Lemma payload_plain : forall p, weight (show_payload_type p) = 0%Z.
Proof.
  intros [n|]; [apply weight_plain; cbn [show_payload_type]; apply plain_N | reflexivity].
Qed.
Lemma image_prints : forall a, attr_range (AImageAttr a) -> attr_wf (AImageAttr a) -> ~ image_nan a ->
  prints (AImageAttr a) (show_image_attr a).
Proof.
  intros a (R0 & R1 & R2) (W1 & W2 & W3) L.
  assert (L1 : ~ list_nan (img_send a)) by (intro K; apply L; left; exact K).
  assert (L2 : ~ list_nan (img_recv a)) by (intro K; apply L; right; left; exact K).
  pose proof (fun K => list_printed _ K R1 W1 L1) as H1. pose proof (fun K => list_printed _ K R2 W2 L2) as H2. clear L L1 L2.
  destruct (payload_printed _ R0) as [P1 P2].
  assert (exists d first more dir l1 l2,
      part_pieces (lit "send") (img_send a) ++ part_pieces (lit "recv") (img_recv a) = d :: first ++ more /\
      Forall (grouped 32) (d :: first ++ more) /\ (exists x t, d :: first ++ more = x ++ [t] /\ ends_solid t) /\
      is_word d (single_direction_name dir) /\ image_list_value first l1 /\
      match more with
      | [] => l2 = Sets []
      | d2 :: second =>
          is_word d2 (single_direction_name (match dir with Send => Recv | Recv => Send end)) /\
          image_list_value second l2
      end /\
      match dir with
      | Send => img_send a = l1 /\ img_recv a = l2
      | Recv => img_send a = l2 /\ img_recv a = l1
      end) as (d & first & more & dir & l1 & l2 & E1 & E2 & (xs & t & E3 & E4) & E5 & E6 & E7 & E8).
  { assert (Dc : forall l, {l = Sets []} + {l <> Sets []}) by (intros [[|]|]; [left; reflexivity | right; discriminate..]).
    assert (Pp : forall name l, l <> Sets [] -> part_pieces name l = name :: list_pieces l) by (intros name [[|]|] K; [congruence | reflexivity..]).
    assert (Gs : grouped 32 (lit "send")) by (apply grouped_one; [apply not_in_b; reflexivity | reflexivity]).
    assert (Gr : grouped 32 (lit "recv")) by (apply grouped_one; [apply not_in_b; reflexivity | reflexivity]).
    destruct (Dc (img_send a)) as [Es|Es], (Dc (img_recv a)) as [Er|Er].
    - elim W3. split; assumption.
    - destruct (H2 Er) as (V & G & x & t & Et & St). exists (lit "recv"), (list_pieces (img_recv a)), [], Recv, (img_recv a), (Sets []).
      rewrite app_nil_r. split; [rewrite Es, (Pp _ _ Er); reflexivity|]. split; [constructor; assumption|].
      split; [exists (lit "recv" :: x), t; rewrite Et; split; [reflexivity | exact St]|]. split; [reflexivity|].
      split; [exact V|]. split; [reflexivity|]. split; [exact Es | reflexivity].
    - destruct (H1 Es) as (V & G & x & t & Et & St). exists (lit "send"), (list_pieces (img_send a)), [], Send, (img_send a), (Sets []).
      split; [rewrite Er, (Pp _ _ Es); reflexivity|]. rewrite app_nil_r. split; [constructor; assumption|].
      split; [exists (lit "send" :: x), t; rewrite Et; split; [reflexivity | exact St]|]. split; [reflexivity|].
      split; [exact V|]. split; [reflexivity|]. split; [reflexivity | exact Er].
    - destruct (H1 Es) as (V1 & G1 & _). destruct (H2 Er) as (V & G & x & t & Et & St).
      exists (lit "send"), (list_pieces (img_send a)), (lit "recv" :: list_pieces (img_recv a)), Send, (img_send a), (img_recv a).
      split; [rewrite (Pp _ _ Es), (Pp _ _ Er); reflexivity|].
      split; [constructor; [exact Gs|]; apply Forall_app; split; [exact G1 | constructor; assumption]|].
      split; [exists (lit "send" :: list_pieces (img_send a) ++ lit "recv" :: x), t; rewrite Et; split; [cbn [app]; rewrite <- app_assoc; reflexivity | exact St]|].
      split; [reflexivity|]. split; [exact V1|]. split; [split; [reflexivity | exact V] | split; reflexivity]. }
  assert (T : show_image_attr a = join [32] (show_payload_type (img_pt a) :: d :: first ++ more)) by (rewrite image_text, E1; reflexivity).
  assert (Es : ends_solid (show_image_attr a)).
  { rewrite T, E3. apply (ends_join_last [32] (show_payload_type (img_pt a) :: xs)), E4. }
  eapply prints_intro; [reflexivity | reflexivity | exact Es|].
  exists (show_image_attr a), (show_payload_type (img_pt a)), d, first, more, dir, l1, l2.
  split; [apply core_self; [|exact Es]; rewrite T, join_leads; apply starts_app, word_starts, P1|].
  split; [rewrite T; apply grouped_tokens; [discriminate|]; constructor; [|exact E2]; apply grouped_one;
          [destruct (img_pt a); cbn [show_payload_type]; [apply not_in_N; reflexivity | apply not_in_b; reflexivity] | apply payload_plain]|].
  split; [exact P2|]. split; [exact E5|]. split; [exact E6|]. split; [exact E7 | exact E8].
Qed.
End WithExt.

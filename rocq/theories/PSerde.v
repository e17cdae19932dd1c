(** * Lemmas for C57: serialized values of a given shape *)
From Coq Require Import List NArith ZArith Bool Ascii String Lia.
From Verif Require Import Str Num Net Types Ext Show Session Tools Serde SpecDoc SpecItems SpecTools SpecSerde StrLemmas PVal5.
Import ListNotations.
Open Scope N_scope.
Open Scope list_scope.

(** ** Sizes *)
Fixpoint vsize (v : sv) : nat :=
  match v with
  | SvSome v => S (vsize v)
  | SvSeq l | SvTuple l => S (list_sum (map vsize l))
  | SvStruct _ l => S (list_sum (map (fun f => match f with (_, v) => vsize v end) l))
  | SvNewtypeVariant _ _ _ v => S (vsize v)
  | SvTupleVariant _ _ _ l => S (list_sum (map vsize l))
  | SvStructVariant _ _ _ l => S (list_sum (map (fun f => match f with (_, v) => vsize v end) l))
  | _ => 1%nat
  end.
Lemma list_sum_in : forall {A} (f : A -> nat) l x, In x l -> (f x <= list_sum (map f l))%nat.
Proof. intros A f l x. induction l as [|y l IH]; intro I; [destruct I|]. destruct I as [->|I]; cbn; [lia|]. specialize (IH I). unfold list_sum in *. lia. Qed.

(** ** Shapes that JSON keeps apart *)
Fixpoint distinct (l : list string) : bool :=
  match l with [] => true | x :: l => negb (existsb (String.eqb x) l) && distinct l end.
Lemma distinct_nodup : forall l, distinct l = true -> NoDup (map of_string l).
Proof.
  induction l as [|x l IH]; cbn; intro H; [constructor|]. apply andb_prop in H. destruct H as [H1 H2]. constructor; [|exact (IH H2)].
  intro I. apply in_map_iff in I. destruct I as (y & Q & I). apply of_string_inj in Q. subst y.
  apply negb_true_iff in H1. assert (K : existsb (String.eqb x) l = true) by (apply existsb_exists; exists x; split; [exact I | apply String.eqb_refl]).
  congruence.
Qed.
Fixpoint clear (s : schema) : bool :=
  match s with
  | ScOption s => match s with ScOption _ => false | _ => clear s end
  | ScSeq s => clear s
  | ScTuple l => forallb clear l
  | ScStruct _ l => distinct (map fst l) && forallb (fun f => match f with (_, s) => clear s end) l
  | ScEnum _ l =>
      distinct (map fst l) &&
      forallb (fun f => match f with (_, sh) =>
        match sh with
        | VUnit => true
        | VNew s => clear s
        | VTuple l => forallb clear l
        | VStruct l => distinct (map fst l) && forallb (fun f => match f with (_, s) => clear s end) l
        end end) l
  | _ => true
  end.
Lemma nth_name : forall {A} (vs : list (string * A)) i j v v' a a', distinct (map fst vs) = true ->
  nth_error vs i = Some (v, a) -> nth_error vs j = Some (v', a') -> of_string v = of_string v' -> i = j.
Proof.
  intros A vs i j v v' a a' D Hi Hj Q. apply distinct_nodup in D.
  rewrite NoDup_nth_error in D. apply D.
  - rewrite !map_length. apply nth_error_Some. rewrite Hi. discriminate.
  - rewrite !nth_error_map, Hi, Hj. cbn. f_equal. exact Q.
Qed.
Lemma same_variant : forall {A} (vs : list (string * A)) i j v v' a a', distinct (map fst vs) = true ->
  nth_error vs i = Some (v, a) -> nth_error vs j = Some (v', a') -> of_string v = of_string v' -> i = j /\ v = v' /\ a = a'.
Proof. intros A vs i j v v' a a' D Hi Hj Q. assert (i = j) by (eapply nth_name; eauto). subst j. rewrite Hi in Hj. injection Hj as -> ->. auto. Qed.
Definition variant_clear (f : string * variant_shape schema) : bool :=
  match f with (_, sh) =>
    match sh with
    | VUnit => true
    | VNew s => clear s
    | VTuple l => forallb clear l
    | VStruct l => distinct (map fst l) && forallb (fun f => match f with (_, s) => clear s end) l
    end end.
Lemma new_clear : forall vs i v s, forallb variant_clear vs = true -> nth_error vs i = Some (v, VNew s) -> clear s = true.
Proof. intros vs i v s F H. rewrite forallb_forall in F. exact (F _ (nth_error_In _ _ H)). Qed.
Lemma tuple_clear : forall vs i v s, forallb variant_clear vs = true -> nth_error vs i = Some (v, VTuple s) -> forallb clear s = true.
Proof. intros vs i v s F H. rewrite forallb_forall in F. exact (F _ (nth_error_In _ _ H)). Qed.
Lemma struct_clear : forall vs i v l, forallb variant_clear vs = true -> nth_error vs i = Some (v, VStruct l) ->
  distinct (map fst l) = true /\ forallb (fun f => match f with (_, s) => clear s end) l = true.
Proof. intros vs i v s F H. rewrite forallb_forall in F. apply andb_prop. exact (F _ (nth_error_In _ _ H)). Qed.
Definition fields_conform (ss : list (string * schema)) (l : list (str * sv)) : Prop :=
  Forall2 (fun s f => fst f = of_string (fst s) /\ conforms (snd s) (snd f)) ss l.
Definition jfields (l : list (str * sv)) : list (str * json) := map (fun f => match f with (n, v) => (n, to_json v) end) l.

Lemma not_null : forall s v, match s with ScOption _ => False | _ => True end -> conforms s v -> all_finite v -> to_json v <> JNull.
Proof.
  intros s v N C F. destruct C; try contradiction; cbn; try discriminate.
  - inversion F as [| ? H | | | | | | | | | | | |]; subst. unfold f32_finite. replace (f_mag 31 x <? f32_inf) with true by (symmetry; apply N.ltb_lt; exact H). discriminate.
  - inversion F as [| | ? H | | | | | | | | | | |]; subst. unfold f64_finite. replace (f_mag 63 x <? f64_inf) with true by (symmetry; apply N.ltb_lt; exact H). discriminate.
Qed.

(** One value at a time. *)
Definition told_apart (n : nat) : Prop := forall a b s, (vsize a < n)%nat -> clear s = true -> conforms s a -> conforms s b ->
  all_finite a -> all_finite b -> to_json a = to_json b -> a = b.
Lemma apart_seq : forall n s, told_apart n -> clear s = true -> forall l m, (list_sum (map vsize l) < n)%nat -> Forall (conforms s) l -> Forall (conforms s) m ->
  Forall all_finite l -> Forall all_finite m -> map to_json l = map to_json m -> l = m.
Proof.
  intros n s IH Cl. induction l as [|x l IHl]; intros [|y m] Sz Cx Cy Fx Fy Q; try discriminate Q; [reflexivity|].
  inversion Cx; inversion Cy; inversion Fx; inversion Fy; subst. cbn [map] in Q, Sz. injection Q as Q1 Q2. cbn in Sz. f_equal.
  - apply (IH x y s); auto. lia.
  - apply IHl; auto. unfold list_sum in *. lia.
Qed.
Lemma apart_tuple : forall n, told_apart n -> forall ss l m, forallb clear ss = true -> (list_sum (map vsize l) < n)%nat -> Forall2 conforms ss l -> Forall2 conforms ss m ->
  Forall all_finite l -> Forall all_finite m -> map to_json l = map to_json m -> l = m.
Proof.
  intros n IH. induction ss as [|s ss IHl]; intros l m Cl Sz Cx Cy Fx Fy Q; inversion Cx; inversion Cy; subst; [reflexivity|].
  inversion Fx; inversion Fy; subst. cbn [map] in Q, Sz. injection Q as Q1 Q2. cbn in Sz, Cl. apply andb_prop in Cl. destruct Cl as [C1 C2]. f_equal.
  - eapply IH; eauto. lia.
  - apply IHl; auto. unfold list_sum in *. lia.
Qed.
Lemma apart_fields : forall n, told_apart n -> forall ss l m, forallb (fun f => match f with (_, s) => clear s end) ss = true ->
  (list_sum (map (fun f : str * sv => match f with (_, v) => vsize v end) l) < n)%nat -> fields_conform ss l -> fields_conform ss m ->
  Forall (fun f => all_finite (snd f)) l -> Forall (fun f => all_finite (snd f)) m -> jfields l = jfields m -> l = m.
Proof.
  intros n IH. induction ss as [|[k s] ss IHl]; intros l m Cl Sz Cx Cy Fx Fy Q; inversion Cx as [|? [k1 x] ? l' [K1 C1] Cx']; inversion Cy as [|? [k2 y] ? m' [K2 C2] Cy']; subst; [reflexivity|].
  inversion Fx as [|? ? F1 Fx']; inversion Fy as [|? ? F2 Fy']; subst. cbn [jfields map] in Q, Sz. injection Q as Qk Q1 Q2. cbn in Sz, Cl, C1, C2, F1, F2. apply andb_prop in Cl. destruct Cl as [D1 D2].
  f_equal; [f_equal; [exact Qk|]|].
  - apply (IH x y s); auto. lia.
  - apply IHl; auto. unfold list_sum in *. lia.
Qed.
Ltac samev D Q Sh := match goal with H1 : nth_error ?vs ?i = _, H2 : nth_error ?vs ?j = _ |- _ =>
  let Qi := fresh in let Qv := fresh in destruct (same_variant vs _ _ _ _ _ _ D H1 H2 Q) as (Qi & Qv & Sh); subst end.
Lemma apart : forall n, told_apart n.
Proof.
  induction n as [|n IH]; intros a b s Sz Cl Ca Cb Fa Fb Q; [lia|].
  inversion Ca; subst; inversion Cb; subst; try discriminate Q; cbn [vsize] in Sz; cbn [clear] in Cl;
    inversion Fa; subst; inversion Fb; subst; cbn [to_json] in Q.
  - injection Q as ->. reflexivity.
  - injection Q as ->. reflexivity.
  - unfold f32_finite in Q. rewrite !(proj2 (N.ltb_lt _ _)) in Q by assumption. injection Q as ->. reflexivity.
  - unfold f64_finite in Q. rewrite !(proj2 (N.ltb_lt _ _)) in Q by assumption. injection Q as ->. reflexivity.
  - injection Q as ->. reflexivity.
  - reflexivity.
  - exfalso. symmetry in Q. revert Q. eapply not_null; [|eassumption|assumption]. destruct s0; try exact I. discriminate Cl.
  - exfalso. revert Q. eapply not_null; [|eassumption|assumption]. destruct s0; try exact I. discriminate Cl.
  - f_equal. apply (IH v v0 s0); auto; [lia|]. destruct s0; try discriminate Cl; exact Cl.
  - f_equal. injection Q as Q. eapply apart_seq with (n := n); eauto. lia.
  - f_equal. injection Q as Q. eapply apart_tuple with (n := n); eauto. lia.
  - f_equal. injection Q as Q. apply andb_prop in Cl. destruct Cl as [_ Cl]. eapply apart_fields with (n := n); eauto. lia.
  - injection Q as Q. apply andb_prop in Cl. destruct Cl as [D _]. samev D Q Sh. reflexivity.
  - injection Q as Qn Q. apply andb_prop in Cl. destruct Cl as [D Cl]. samev D Qn Sh. injection Sh as <-.
    f_equal. eapply IH; eauto; [lia|]. eapply new_clear; eauto.
  - exfalso. injection Q as Qn Q. apply andb_prop in Cl. destruct Cl as [D Cl]. samev D Qn Sh. discriminate Sh.
  - exfalso. injection Q as Qn Q. apply andb_prop in Cl. destruct Cl as [D Cl]. samev D Qn Sh. discriminate Sh.
  - exfalso. injection Q as Qn Q. apply andb_prop in Cl. destruct Cl as [D Cl]. samev D Qn Sh. discriminate Sh.
  - injection Q as Qn Q. apply andb_prop in Cl. destruct Cl as [D Cl]. samev D Qn Sh. injection Sh as <-.
    f_equal. eapply apart_tuple with (n := n); eauto; [|lia]. eapply tuple_clear; eauto.
  - exfalso. injection Q as Qn Q. apply andb_prop in Cl. destruct Cl as [D Cl]. samev D Qn Sh. discriminate Sh.
  - injection Q as Qn Q. apply andb_prop in Cl. destruct Cl as [D Cl]. samev D Qn Sh. injection Sh as <-.
    f_equal. eapply apart_fields with (n := n); eauto; [|lia]. exact (proj2 (struct_clear _ _ _ _ Cl ltac:(eassumption))).
  - injection Q as Q1 Q2. subst. reflexivity.
  - injection Q as Q1 Q2 Q3 Q4. subst. reflexivity.
Qed.
Theorem json_apart : forall s a b, clear s = true -> conforms s a -> conforms s b -> all_finite a -> all_finite b -> to_json a = to_json b -> a = b.
Proof. intros s a b Cl Ca Cb Fa Fb Q. eapply (apart (S (vsize a))); eauto. Qed.

(** ** Without names *)
Definition pos_fields (l : list (str * sv)) : list positional := flat_map (fun f => match f with (_, v) => to_positional v end) l.
Definition pos_apart (n : nat) : Prop := forall a b s ra rb, (vsize a < n)%nat -> conforms s a -> conforms s b ->
  to_positional a ++ ra = to_positional b ++ rb -> a = b /\ ra = rb.
Lemma pos_seq : forall n s, pos_apart n -> forall l m ra rb, List.length l = List.length m -> (list_sum (map vsize l) < n)%nat -> Forall (conforms s) l -> Forall (conforms s) m ->
  flat_map to_positional l ++ ra = flat_map to_positional m ++ rb -> l = m /\ ra = rb.
Proof.
  intros n s IH. induction l as [|x l IHl]; intros [|y m] ra rb L Sz Cx Cy Q; try discriminate L; [split; [reflexivity | exact Q]|].
  inversion Cx; inversion Cy; subst. cbn [flat_map map] in Q, Sz. rewrite <- !app_assoc in Q. cbn in Sz. cbn in L.
  destruct (IH x y s _ _ ltac:(lia) ltac:(assumption) ltac:(assumption) Q) as [-> Q2].
  destruct (IHl m ra rb) as [-> ->]; auto. unfold list_sum in *. lia.
Qed.
Lemma pos_tuple : forall n, pos_apart n -> forall ss l m ra rb, (list_sum (map vsize l) < n)%nat -> Forall2 conforms ss l -> Forall2 conforms ss m ->
  flat_map to_positional l ++ ra = flat_map to_positional m ++ rb -> l = m /\ ra = rb.
Proof.
  intros n IH. induction ss as [|s ss IHl]; intros l m ra rb Sz Cx Cy Q; inversion Cx as [|? x ? l' C1 Cx']; inversion Cy as [|? y ? m' C2 Cy']; subst; [split; [reflexivity | exact Q]|].
  cbn [flat_map map] in Q, Sz. rewrite <- !app_assoc in Q. cbn in Sz.
  destruct (IH x y s _ _ ltac:(lia) ltac:(assumption) ltac:(assumption) Q) as [-> Q2].
  destruct (IHl l' m' ra rb) as [-> ->]; auto. unfold list_sum in *. lia.
Qed.
Lemma pos_struct : forall n, pos_apart n -> forall ss l m ra rb,
  (list_sum (map (fun f : str * sv => match f with (_, v) => vsize v end) l) < n)%nat -> fields_conform ss l -> fields_conform ss m ->
  pos_fields l ++ ra = pos_fields m ++ rb -> l = m /\ ra = rb.
Proof.
  intros n IH. induction ss as [|[k s] ss IHl]; intros l m ra rb Sz Cx Cy Q; inversion Cx as [|? [k1 x] ? l' [K1 C1] Cx']; inversion Cy as [|? [k2 y] ? m' [K2 C2] Cy']; subst;
    [split; [reflexivity | exact Q]|].
  cbn [pos_fields flat_map map] in Q, Sz. rewrite <- !app_assoc in Q. cbn in Sz. cbn in C1, C2, K1, K2.
  destruct (IH x y s _ _ ltac:(lia) ltac:(assumption) ltac:(assumption) Q) as [-> Q2].
  destruct (IHl l' m' ra rb) as [-> ->]; auto; [unfold list_sum in *; lia|]. split; [|reflexivity]. congruence.
Qed.
Lemma pos : forall n, pos_apart n.
Proof.
  induction n as [|n IH]; intros a b s ra rb Sz Ca Cb Q; [lia|].
  inversion Ca; subst; inversion Cb; subst; cbn [vsize] in Sz; cbn [to_positional app] in Q.
  - injection Q as Q ->. destruct b0, b1; try discriminate Q; auto.
  - injection Q as -> ->. auto.
  - injection Q as -> ->. auto.
  - injection Q as -> ->. auto.
  - injection Q as -> ->. auto.
  - injection Q as ->. auto.
  - discriminate Q.
  - discriminate Q.
  - injection Q as Q. destruct (IH v v0 s0 ra rb) as [-> ->]; auto. lia.
  - injection Q as L Q. destruct (pos_seq n s0 IH l l0 ra rb) as [-> ->]; auto. lia.
  - destruct (pos_tuple n IH ss l l0 ra rb) as [-> ->]; auto. lia.
  - destruct (pos_struct n IH ss l l0 ra rb) as [-> ->]; auto. lia.
  - injection Q as -> ->. split; congruence.
  - exfalso. injection Q as <- _. congruence.
  - exfalso. injection Q as <- _. congruence.
  - exfalso. injection Q as <- _. congruence.
  - exfalso. injection Q as <- _. congruence.
  - injection Q as <- Q. match goal with H1 : nth_error _ _ = Some _, H2 : nth_error _ _ = Some _ |- _ => rewrite H1 in H2; injection H2 as <- <- end.
    destruct (IH x x0 s0 ra rb) as [-> ->]; auto. lia.
  - exfalso. injection Q as <- _. congruence.
  - exfalso. injection Q as <- _. congruence.
  - exfalso. injection Q as <- _. congruence.
  - exfalso. injection Q as <- _. congruence.
  - injection Q as <- Q. match goal with H1 : nth_error _ _ = Some _, H2 : nth_error _ _ = Some _ |- _ => rewrite H1 in H2; injection H2 as <- <- end.
    destruct (pos_tuple n IH ss l l0 ra rb) as [-> ->]; auto. lia.
  - exfalso. injection Q as <- _. congruence.
  - exfalso. injection Q as <- _. congruence.
  - exfalso. injection Q as <- _. congruence.
  - exfalso. injection Q as <- _. congruence.
  - injection Q as <- Q. match goal with H1 : nth_error _ _ = Some _, H2 : nth_error _ _ = Some _ |- _ => rewrite H1 in H2; injection H2 as <- <- end.
    destruct (pos_struct n IH ss l l0 ra rb) as [-> ->]; auto. lia.
  - injection Q as -> -> ->. auto.
  - exfalso. cbn in Q. injection Q as Qk _. match goal with H : _ \/ _ |- _ => destruct H as [K|K]; rewrite K in Qk; discriminate Qk end.
  - exfalso. cbn in Q. injection Q as Qk _. match goal with H : _ \/ _ |- _ => destruct H as [K|K]; rewrite K in Qk; discriminate Qk end.
  - injection Q as -> -> -> -> ->. auto.
Qed.
Theorem positional_apart : forall s a b, conforms s a -> conforms s b -> to_positional a = to_positional b -> a = b.
Proof. intros s a b Ca Cb Q. apply (pos (S (vsize a)) a b s [] []); auto. rewrite Q. reflexivity. Qed.

(** ** Keys *)
Definition keyed (n : nat) : Prop := forall v s, (vsize v < n)%nat -> clear s = true -> conforms s v -> keys_differ (to_json v).
Lemma keyed_all : forall n (l : list sv), keyed n -> (list_sum (map vsize l) < n)%nat -> (forall v, In v l -> exists s, clear s = true /\ conforms s v) ->
  Forall keys_differ (map to_json l).
Proof.
  intros n l IH Sz H. apply Forall_forall. intros j I. apply in_map_iff in I. destruct I as (v & <- & I). destruct (H _ I) as (s & C1 & C2).
  apply (IH v s); auto. pose proof (list_sum_in vsize l v I). lia.
Qed.
Lemma keyed_fields : forall n ss (l : list (str * sv)), keyed n -> (list_sum (map (fun f : str * sv => match f with (_, v) => vsize v end) l) < n)%nat ->
  distinct (map fst ss) = true -> forallb (fun f => match f with (_, s) => clear s end) ss = true -> fields_conform ss l -> keys_differ (JObj (jfields l)).
Proof.
  intros n ss l IH Sz D Cl F. constructor.
  - apply distinct_nodup in D. replace (map fst (jfields l)) with (map of_string (map fst ss)); [exact D|]. clear - F.
    induction F as [|[k s] [k' v] ss l [K _] F IH]; [reflexivity|]. cbn in *. rewrite K, IH. reflexivity.
  - apply Forall_forall. intros j I. apply in_map_iff in I. destruct I as ([k v] & <- & I). cbn [snd].
    assert (X : exists s, clear s = true /\ conforms s v).
    { clear - F Cl I. induction F as [|[k1 s] [k' v'] ss l [K C] F IH]; [destruct I|]. cbn in Cl. apply andb_prop in Cl. destruct Cl as [C1 C2].
      destruct I as [I|I]; [|exact (IH C2 I)]. injection I as -> ->. exists s. split; assumption. }
    destruct X as (s & C1 & C2). apply (IH v s); auto. pose proof (list_sum_in (fun f : str * sv => match f with (_, v) => vsize v end) l _ I). cbn in H. lia.
Qed.
Lemma tuple_conforms : forall ss l, forallb clear ss = true -> Forall2 conforms ss l -> forall v, In v l -> exists s, clear s = true /\ conforms s v.
Proof.
  intros ss l Cl F. induction F as [|s x ss l C F IH]; intros v I; [destruct I|]. cbn in Cl. apply andb_prop in Cl. destruct Cl as [C1 C2].
  destruct I as [<-|I]; [exists s; auto | exact (IH C2 _ I)].
Qed.
Lemma keyed_one : forall k j, keys_differ j -> keys_differ (JObj [(k, j)]).
Proof. intros k j H. constructor; [constructor; [intros []|constructor]|]. constructor; [exact H | constructor]. Qed.
Lemma keys : forall n, keyed n.
Proof.
  induction n as [|n IH]; intros a s Sz Cl Ca; [lia|].
  inversion Ca; subst; cbn [vsize] in Sz; cbn [clear] in Cl; cbn [to_json]; try constructor.
  - destruct (f32_finite x); constructor.
  - destruct (f64_finite x); constructor.
  - apply (IH v s0); [lia| |assumption]. destruct s0; try discriminate Cl; exact Cl.
  - eapply keyed_all; eauto; [lia|]. intros v I. exists s0. split; [exact Cl|]. rewrite Forall_forall in *. auto.
  - eapply keyed_all; eauto; [lia|]. eapply tuple_conforms; eauto.
  - apply andb_prop in Cl. destruct Cl as [D Cl]. pose proof (keyed_fields n ss l IH ltac:(lia) D Cl H) as K. inversion K; assumption.
  - apply andb_prop in Cl. destruct Cl as [D Cl]. pose proof (keyed_fields n ss l IH ltac:(lia) D Cl H) as K. inversion K; assumption.
  - constructor; [intros []|constructor].
  - constructor; [|constructor]. cbn [snd]. apply andb_prop in Cl. destruct Cl as [D Cl]. apply (IH x s0); [lia| |assumption]. eapply new_clear; eauto.
  - constructor; [intros []|constructor].
  - constructor; [|constructor]. cbn [snd]. apply andb_prop in Cl. destruct Cl as [D Cl]. constructor. eapply keyed_all; eauto; [lia|]. eapply tuple_conforms; eauto. eapply tuple_clear; eauto.
  - constructor; [intros []|constructor].
  - constructor; [|constructor]. cbn [snd]. apply andb_prop in Cl. destruct Cl as [D Cl].
    destruct (struct_clear _ _ _ _ Cl ltac:(eassumption)) as [D2 Cl2]. eapply (keyed_fields n); eauto. lia.
  - cbn. repeat (constructor; [cbn; intuition discriminate|]). constructor.
  - cbn. repeat (constructor; [constructor|]). constructor.
  - cbn. repeat (constructor; [cbn; intuition discriminate|]). constructor.
  - cbn. repeat (constructor; [constructor|]). constructor.
Qed.
Theorem json_keys : forall s v, clear s = true -> conforms s v -> keys_differ (to_json v).
Proof. intros s v Cl C. eapply (keys (S (vsize v))); eauto. Qed.

(** * imageattr against the grammar of SpecVal.v (proofs only) *)
From Coq Require Import List NArith ZArith Bool Ascii String Lia.
From Coq Require Import ZifyBool ZifyNat ZifyN.
From Verif Require Import Str Num Net Types Ext Show Address AttrParse Media Session.
From Verif Require Import StrLemmas NumLemmas NetLemmas.
From Verif Require Import SpecApi SpecDoc SpecVal PPanic PVal PVal2 PVal3 PVal4 PVal5 PVal6.
Import ListNotations.
Open Scope N_scope.
Open Scope list_scope.

Lemma balance_app : forall a b, (balance (a ++ b) = balance a + balance b)%Z.
Proof.
  induction a as [|x a IH]; intro b; [reflexivity|].
  change (balance ((x :: a) ++ b)) with (weight x + balance (a ++ b))%Z. rewrite IH.
  change (balance (x :: a)) with (weight x + balance a)%Z. lia.
Qed.
Lemma balance_one : forall t, balance [t] = weight t.
Proof. intro t. unfold balance. cbn [fold_right]. lia. Qed.
Lemma open_nil : open_group [].
Proof. intros p q H N. symmetry in H. apply app_eq_nil in H. destruct H; contradiction. Qed.
Lemma open_snoc : forall l t, open_group l -> balance (l ++ [t]) <> 0%Z -> open_group (l ++ [t]).
Proof.
  intros l t O B p q H N. destruct q as [|y q] using rev_ind.
  - rewrite app_nil_r in H. subst. exact B.
  - rewrite app_assoc in H. apply app_inj_tail in H. destruct H as [H _]. apply (O p q H N).
Qed.

Lemma step_weight : forall (k : Z) t r,
  (k1 <- (if contains c_lbr t then i32_checked (k + 1) else Ok k) ;;
   (if contains c_rbr t then i32_checked (k1 - 1) else Ok k1)) = Ok r -> (r = k + weight t)%Z.
Proof.
  intros k t r H. unfold weight. change 91 with c_lbr. change 93 with c_rbr. unfold i32_checked in H.
  okb H k1 Hk1.
  destruct (contains c_lbr t), (contains c_rbr t);
    repeat match goal with
    | X : (if ?b then _ else _) = Ok _ |- _ => destruct b; [|discriminate X]
    end; inv Hk1; inv H; lia.
Qed.

Lemma loop_sound : forall sep l k cur tokens r,
  imageattr_tokens_loop sep k cur tokens l = Ok r -> open_group cur -> balance cur = k ->
  exists groups left, cur ++ l = List.concat groups ++ left /\ Forall closed_group groups /\
    open_group left /\ r = tokens ++ map (join [sep]) groups.
Proof.
  intros sep l. induction l as [|t l IH]; intros k cur tokens r H O B; cbn [imageattr_tokens_loop] in H.
  - inv H. exists [], cur. repeat split; auto; rewrite app_nil_r; reflexivity.
  - okb H k1 H1. okb H k2 H2.
    assert (W : k2 = (k + weight t)%Z).
    { apply step_weight. unfold i32_checked in *. rewrite H1. cbn [bind]. exact H2. }
    clear H1 H2. cbv zeta in H.
    assert (B' : balance (cur ++ [t]) = k2) by (rewrite balance_app, balance_one; lia).
    destruct (Z.eqb_spec k2 0) as [Z|Z].
    + apply IH in H; [|apply open_nil | rewrite Z; reflexivity].
      destruct H as (groups & left & Eq & C & Ol & ->). cbn [app] in Eq.
      exists ((cur ++ [t]) :: groups), left. split.
      * cbn [List.concat]. rewrite <- app_assoc, <- Eq, <- app_assoc. reflexivity.
      * split; [constructor; [|exact C]|].
        -- exists cur, t. rewrite B'. auto.
        -- split; [exact Ol|]. rewrite <- app_assoc. reflexivity.
    + apply IH in H; [|apply open_snoc; [exact O | rewrite B'; exact Z] | exact B'].
      destruct H as (groups & left & Eq & C & Ol & ->). exists groups, left.
      rewrite <- app_assoc in Eq. auto.
Qed.

Lemma closed_nonempty : forall g, closed_group g -> g <> [].
Proof. intros g (i & t & -> & _) H. destruct i; discriminate. Qed.
Lemma closed_prefix : forall g g' x, closed_group g -> closed_group g' -> g = g' ++ x -> x = [].
Proof.
  intros g g' x (i & t & -> & O & B) C H. destruct x as [|y x] using rev_ind; [reflexivity|].
  rewrite app_assoc in H. apply app_inj_tail in H. destruct H as [H _]. exfalso.
  pose proof (closed_nonempty _ C) as N. destruct C as (i' & t' & -> & O' & B').
  exact (O _ _ H N B').
Qed.
Lemma groups_unique : forall g g' l l', List.concat g ++ l = List.concat g' ++ l' ->
  Forall closed_group g -> Forall closed_group g' -> open_group l -> open_group l' -> g = g' /\ l = l'.
Proof.
  induction g as [|c g IH]; intros g' l l' H C C' O O'.
  - destruct g' as [|c' g']; [auto|]. exfalso. cbn in H. rewrite <- app_assoc in H.
    inversion C' as [|? ? Cc' Cg']; subst. pose proof (closed_nonempty _ Cc') as N.
    destruct Cc' as (i & t & -> & Oi & B). exact (O _ _ eq_refl N B).
  - destruct g' as [|c' g'].
    + exfalso. cbn in H. rewrite <- app_assoc in H.
      inversion C as [|? ? Cc Cg]; subst. pose proof (closed_nonempty _ Cc) as N.
      destruct Cc as (i & t & -> & Oi & B). exact (O' _ _ eq_refl N B).
    + inversion C as [|? ? Cc Cg]; inversion C' as [|? ? Cc' Cg']; subst.
      cbn in H. rewrite <- !app_assoc in H.
      assert (c = c' /\ List.concat g ++ l = List.concat g' ++ l') as [-> Eq].
      { apply app_eq_app in H. destruct H as (x & [[E1 E2] | [E1 E2]]).
        - assert (x = []) by (eapply (closed_prefix c c'); eauto). subst x.
          rewrite app_nil_r in E1. auto.
        - assert (x = []) by (eapply (closed_prefix c' c); eauto). subst x.
          rewrite app_nil_r in E1. auto. }
      destruct (IH _ _ _ Eq Cg Cg' O O') as [-> ->]. auto.
Qed.
Lemma bracket_tokens_fun : forall sep s a b, bracket_tokens sep s a -> bracket_tokens sep s b -> a = b.
Proof.
  intros sep s a b (g & l & F & C & O & ->) (g' & l' & F' & C' & O' & ->).
  apply fields_split in F, F'. rewrite F in F'.
  destruct (groups_unique _ _ _ _ F' C C' O O') as [-> _]. reflexivity.
Qed.
Lemma loop_no_err : forall sep l k cur tokens e, imageattr_tokens_loop sep k cur tokens l <> Err e.
Proof.
  intros sep l. induction l as [|t l IH]; intros k cur tokens e; cbn [imageattr_tokens_loop]; [discriminate|].
  unfold i32_checked.
  destruct (contains c_lbr t), (contains c_rbr t);
    repeat match goal with
    | |- context [bind (if ?b then Ok _ else Panic) _] => destruct b; cbn [bind]; [|discriminate]
    | _ => progress cbn [bind]
    end; destruct (_ =? 0)%Z; apply IH.
Qed.
Lemma tokens_sound : forall s sep r, parse_imageattr_tokens s sep = Ok r -> bracket_tokens sep s r.
Proof.
  intros s sep r H. unfold parse_imageattr_tokens in H.
  apply loop_sound in H; [|apply open_nil | reflexivity].
  destruct H as (g & l & Eq & C & O & ->). cbn [app] in *. exists g, l.
  split; [apply fields_split; exact Eq | auto].
Qed.
Lemma tokens_complete : forall s sep r, short (List.length s) -> bracket_tokens sep s r ->
  parse_imageattr_tokens s sep = Ok r.
Proof.
  intros s sep r L B. destruct (parse_imageattr_tokens s sep) as [r'|e|] eqn:P.
  - apply tokens_sound in P. rewrite (bracket_tokens_fun _ _ _ _ B P). reflexivity.
  - exfalso. exact (loop_no_err _ _ _ _ _ _ P).
  - exfalso. exact (parse_tokens_np _ _ L P).
Qed.

Lemma forall2_length : forall {A B} (R : A -> B -> Prop) l l2, Forall2 R l l2 -> List.length l = List.length l2.
Proof. intros A B R l l2 H. induction H; cbn; congruence. Qed.

(** ** Brackets *)
Lemma braced_iff : forall s e i, braced_token s e = Ok i <-> braced s i.
Proof.
  intros s e i. unfold braced_token, braced. split.
  - intro H. destruct s as [|x s]; [discriminate|]. unfold starts_with_char at 1 in H.
    destruct (N.eqb_spec x c_lbr) as [->|]; cbn [negb] in H; [|discriminate].
    destruct s as [|y s] using rev_ind; [discriminate|].
    unfold ends_with_char in H.
    change (rev (c_lbr :: s ++ [y])) with (rev (s ++ [y]) ++ [c_lbr]) in H.
    rewrite rev_unit in H. cbn [app] in H. unfold starts_with_char in H.
    destruct (N.eqb_spec y c_rbr) as [->|]; cbn [negb] in H; [|discriminate].
    unfold slice_inner in H. rewrite rev_unit in H. rewrite rev_involutive in H. inv H. reflexivity.
  - intros ->. cbn [app]. change (starts_with_char c_lbr (91 :: i ++ [93])) with true. cbn [negb].
    assert (X : ends_with_char c_rbr (91 :: i ++ [93]) = true).
    { unfold ends_with_char. change (rev (91 :: i ++ [93])) with (rev (i ++ [93]) ++ [91]).
      rewrite rev_unit. reflexivity. }
    rewrite X. cbn [negb]. unfold slice_inner. rewrite rev_unit, rev_involutive. reflexivity.
Qed.
Lemma braced_starts : forall s i, braced s i -> starts_with_char c_lbr s = true.
Proof. intros s i ->. reflexivity. Qed.
Lemma starts_iff : forall c s, starts_with_char c s = true <-> exists x, s = c :: x.
Proof.
  intros c s. destruct s as [|y s]; cbn; split; intro H; try discriminate.
  - destruct H; discriminate.
  - apply N.eqb_eq in H. subst. eauto.
  - destruct H as [x H]. inv H. apply N.eqb_refl.
Qed.
Lemma braced_contains : forall s i c, braced s i -> c <> 91 -> c <> 93 -> contains c s = contains c i.
Proof.
  intros s i c -> N1 N2. rewrite !contains_app. unfold contains at 1 3. cbn [existsb].
  destruct (N.eqb_spec c 91); [contradiction|]. destruct (N.eqb_spec c 93); [contradiction|].
  cbn. rewrite orb_false_r. reflexivity.
Qed.
Lemma fields_char : forall c d s l, fields c s l -> In d s -> c <> d -> exists t, In t l /\ In d t.
Proof.
  intros c d s l F. induction F as [s H | t s l H F IH]; intros I N.
  - exists s. split; [now left | exact I].
  - apply in_app_or in I. destruct I as [I|I]; [exists t; split; [now left | exact I]|].
    destruct I as [I|I]; [contradiction|]. destruct (IH I N) as (u & I1 & I2).
    exists u. split; [now right | exact I2].
Qed.
Lemma fields_In : forall c s a b l, fields c s (a :: b :: l) -> In c s.
Proof.
  intros c s a b l F. inversion F as [|t s' l' H F' ]; subst. apply in_or_app. right. now left.
Qed.
Lemma fields_length : forall c s l, fields c s l -> In c s -> (2 <= List.length l)%nat.
Proof.
  intros c s l F I. inversion F as [s' H|t s' l' H F']; subst; [contradiction|].
  cbn. inversion F'; cbn; lia.
Qed.
Lemma Forall2_numeral_char : forall m ts l d, Forall2 (numeral m) ts l -> (d = 58 \/ d = 45) ->
  forall t, In t ts -> ~ In d t.
Proof.
  intros m ts l d F D t I X. induction F as [|x n ts l Hx F IH]; [contradiction|].
  destruct I as [->|I]; [|auto]. destruct (numeral_chars _ _ _ Hx _ X) as [Y|Y]; [|lia].
  unfold is_digit in Y. lia.
Qed.
Lemma numerals_iff : forall ts l, mapM p_u32 ts = Ok l <-> Forall2 (numeral u32_max) ts l.
Proof.
  intros ts l. rewrite mapM_ok. split; intro H; induction H; constructor; auto; apply p_u32_iff; assumption.
Qed.

Lemma xy_iff : forall s r, parse_xyrange s = Ok r <-> xy_value s r.
Proof.
  intros s r. unfold parse_xyrange, xy_value.
  destruct (starts_with_char c_lbr s) eqn:St.
  - split.
    + intro H. okb H i Hi. apply braced_iff in Hi. right. exists i. split; [exact Hi|].
      rewrite (braced_contains _ _ _ Hi) in H by discriminate.
      destruct (contains c_colon i) eqn:C.
      * destruct (split c_colon i) as [|a [|b [|c [|]]]] eqn:W; try discriminate.
        -- okb H x Hx. okb H y Hy. inv H. right. left. exists a, b, x, y.
           split; [apply fields_split; exact W|]. rewrite <- !p_u32_iff. auto.
        -- okb H x Hx. okb H y Hy. okb H z Hz. inv H. left. exists a, b, c, x, y, z.
           split; [apply fields_split; exact W|]. rewrite <- !p_u32_iff. auto.
      * okb H l Hl. destruct (Nat.ltb_spec (List.length l) 2); [discriminate|]. inv H.
        right. right. exists (split c_comma i), l.
        split; [apply fields_split; reflexivity|]. split; [apply numerals_iff, Hl | auto].
    + apply starts_iff in St. destruct St as [x0 ->].
      intros [(n & N & ->) | (i & Hi & A)].
      * exfalso. destruct (numeral_chars _ _ _ N c_lbr ltac:(now left)) as [D|D]; unfold is_digit, c_lbr in *; lia.
      * rewrite (proj2 (braced_iff _ _ _) Hi). cbn [bind].
        rewrite (braced_contains _ _ _ Hi) by discriminate.
        destruct A as [(a & b & c & x & y & z & F & Na & Nb & Nc & ->)
                      | [(a & b & x & y & F & Na & Nb & ->) | (ts & l & F & A & L & ->)]].
        -- pose proof (fields_In _ _ _ _ _ F) as I. apply contains_In in I.
           change (contains c_colon i = true) in I. rewrite I.
           apply fields_split in F. change (split c_colon i = [a; b; c]) in F. rewrite F.
           apply p_u32_iff in Na, Nb, Nc. rewrite Na, Nb, Nc. reflexivity.
        -- pose proof (fields_In _ _ _ _ _ F) as I. apply contains_In in I.
           change (contains c_colon i = true) in I. rewrite I.
           apply fields_split in F. change (split c_colon i = [a; b]) in F. rewrite F.
           apply p_u32_iff in Na, Nb. rewrite Na, Nb. reflexivity.
        -- assert (I : contains c_colon i = false).
           { apply contains_not_In. intro I.
             destruct (fields_char _ _ _ _ F I ltac:(discriminate)) as (t & I1 & I2).
             exact (Forall2_numeral_char _ _ _ 58 A (or_introl eq_refl) t I1 I2). }
           rewrite I. apply fields_split in F. change (split c_comma i = ts) in F. rewrite F.
           apply numerals_iff in A. rewrite A. cbn [bind].
           destruct (Nat.ltb_spec (List.length l) 2); [lia | reflexivity].
  - split.
    + intro H. okb H x Hx. inv H. left. exists x. apply p_u32_iff in Hx. auto.
    + intros [(n & N & ->) | (i & Hi & _)].
      * apply p_u32_iff in N. rewrite N. reflexivity.
      * apply braced_starts in Hi. congruence.
Qed.

Section WithExt.
Context {E : Ext}.

Lemma ps_range_iff : forall i x y, parse_ps_range i = Ok (x, y) <-> float_range i x y.
Proof.
  intros i x y. unfold parse_ps_range, float_range. split.
  - intro H. destruct (split c_minus i) as [|a [|b [|]]] eqn:W; try discriminate.
    okb H mn Hmn. okb H mx Hmx. destruct (f32_ge mn mx) eqn:G; [discriminate|]. inv H.
    exists a, b. apply p_f32_iff in Hmn, Hmx. split; [apply fields_split; exact W | auto].
  - intros (a & b & F & Px & Py & G). apply fields_split in F. change (split c_minus i = [a; b]) in F.
    rewrite F. apply p_f32_iff in Px, Py. rewrite Px. cbn [bind]. rewrite Py. cbn [bind].
    rewrite G. reflexivity.
Qed.
Lemma ascending_iff : forall l x u, ascending x l = Ok u <-> ascends x l.
Proof.
  induction l as [|y l IH]; intros x u; cbn; [destruct u; tauto|].
  destruct (f32_ge x y); [split; [discriminate | intros [H _]; discriminate]|].
  rewrite IH. tauto.
Qed.
Lemma floats_iff : forall ts l, mapM p_f32 ts = Ok l <-> Forall2 (fun t x => parse_f32 t = Ok x) ts l.
Proof.
  intros ts l. rewrite mapM_ok. split; intro H; induction H; constructor; auto; apply p_f32_iff; assumption.
Qed.
Lemma sar_iff : forall s r, parse_sar s = Ok r <-> sar_value s r.
Proof.
  intros s r. unfold parse_sar, sar_value. destruct (starts_with_char c_lbr s) eqn:St.
  - split.
    + intro H. okb H i Hi. apply braced_iff in Hi. right. exists i. split; [exact Hi|].
      rewrite !(braced_contains _ _ _ Hi) in H by discriminate.
      destruct (contains c_minus i) eqn:C; [apply contains_In in C | apply contains_not_In in C].
      * okb H z Hz. destruct z as [x y]. inv H. left. split; [exact C|]. exists x, y.
        split; [apply ps_range_iff, Hz | reflexivity].
      * destruct (contains c_comma i) eqn:C2; [apply contains_In in C2 | apply contains_not_In in C2].
        -- okb H l Hl. destruct (Nat.ltb (List.length l) 2); [discriminate|]. okb H u Hu. inv H.
           right. left. split; [exact C|]. split; [exact C2|]. exists (split c_comma i), l.
           split; [apply fields_split; reflexivity|]. split; [apply floats_iff, Hl|].
           split; [exact (proj1 (ascending_iff _ _ _) Hu) | reflexivity].
        -- inv H. right. right. auto.
    + intros [(N & _) | (i & Hi & A)].
      * apply starts_iff in St. destruct St as [x ->]. exfalso. exact (N x eq_refl).
      * rewrite (proj2 (braced_iff _ _ _) Hi). cbn [bind].
        rewrite !(braced_contains _ _ _ Hi) by discriminate.
        destruct A as [(C & x & y & F & ->) | [(C & C2 & ts & l & F & A & As & ->) | (C & C2 & ->)]].
        -- apply contains_In in C. change (contains c_minus i = true) in C. rewrite C.
           apply ps_range_iff in F. rewrite F. reflexivity.
        -- pose proof (fields_length _ _ _ F C2) as L.
           apply contains_not_In in C. change (contains c_minus i = false) in C. rewrite C.
           apply contains_In in C2. change (contains c_comma i = true) in C2. rewrite C2.
           apply fields_split in F. change (split c_comma i = ts) in F. rewrite F.
           rewrite (forall2_length _ _ _ A) in L.
           apply floats_iff in A. rewrite A. cbn [bind].
           destruct (Nat.ltb_spec (List.length l) 2); [lia|].
           rewrite (proj2 (ascending_iff _ _ tt) As). reflexivity.
        -- apply contains_not_In in C. change (contains c_minus i = false) in C. rewrite C.
           apply contains_not_In in C2. change (contains c_comma i = false) in C2. rewrite C2. reflexivity.
  - split.
    + intro H. okb H x Hx. inv H. left. split.
      * intros y ->. discriminate.
      * exists x. apply p_f32_iff in Hx. auto.
    + intros [(N & x & P & ->) | (i & Hi & _)].
      * apply p_f32_iff in P. rewrite P. reflexivity.
      * apply braced_starts in Hi. congruence.
Qed.
Lemma par_iff : forall s r, parse_par s = Ok r <-> par_value s r.
Proof.
  intros s r. unfold parse_par, par_value. split.
  - intro H. destruct (starts_with_char c_lbr s); cbn [negb] in H; [|discriminate].
    okb H i Hi. apply braced_iff in Hi. okb H z Hz. destruct z as [x y]. inv H.
    exists i. split; [exact Hi | apply ps_range_iff, Hz].
  - intros (i & Hi & F). rewrite (braced_starts _ _ Hi). cbn [negb].
    rewrite (proj2 (braced_iff _ _ _) Hi). cbn [bind]. apply ps_range_iff in F. rewrite F.
    destruct r; reflexivity.
Qed.

(** ** Sets *)
Lemma last_cons : forall {A} (x : A) l, last_of (x :: l) = match last_of l with Some y => Some y | None => Some x end.
Proof.
  intros A x l. destruct l as [|y l] using rev_ind; [reflexivity|].
  change (x :: l ++ [y]) with ((x :: l) ++ [y]). rewrite !last_of_snoc. reflexivity.
Qed.
Definition or_last {A} (l : list A) (d : option A) : option A :=
  match last_of l with Some x => Some x | None => d end.
Lemma or_last_cons : forall {A} (x : A) l d, or_last (x :: l) d = or_last l (Some x).
Proof. intros. unfold or_last. rewrite last_cons. destruct (last_of l); reflexivity. Qed.

Lemma strip_iff : forall p s r, strip_prefix p s = Some r <-> s = p ++ r.
Proof.
  intros p s r. split; [apply strip_prefix_some|]. intros ->. induction p as [|x p IH]; [reflexivity|].
  cbn. rewrite N.eqb_refl. exact IH.
Qed.
Lemma strip_none : forall p s, strip_prefix p s = None -> forall r, s <> p ++ r.
Proof. intros p s H r ->. rewrite (proj2 (strip_iff p (p ++ r) r) eq_refl) in H. discriminate. Qed.

Lemma prefixed_here_inv : forall p v l vs, prefixed p ((p ++ v) :: l) vs ->
  exists vs', vs = v :: vs' /\ prefixed p l vs'.
Proof.
  intros p v l vs H. inversion H as [|v' l' vs' H' Eq1 Eq2|t l' vs' N H']; subst.
  - apply app_inv_head in Eq1. subst. eauto.
  - exfalso. exact (N v eq_refl).
Qed.
Lemma prefixed_other_inv : forall p t l vs, (forall v, t <> p ++ v) -> prefixed p (t :: l) vs -> prefixed p l vs.
Proof.
  intros p t l vs N H. inversion H as [|v' l' vs' H' Eq1 Eq2|t' l' vs' N' H']; subst; [|assumption].
  exfalso. exact (N v' eq_refl).
Qed.

Definition keys_state (opts : list str) (s0 : option s_range) (p0 : option p_range) (q0 : option f32)
  (s : option s_range) (p : option p_range) (q : option f32) : Prop :=
  (exists vs rs, prefixed (lit "sar=") opts vs /\ Forall2 sar_value vs rs /\ s = or_last (somes rs) s0) /\
  (exists vs rs, prefixed (lit "par=") opts vs /\ Forall2 par_value vs rs /\ p = or_last rs p0) /\
  (exists vs rs, prefixed (lit "q=") opts vs /\ Forall2 (fun t y => parse_f32 t = Ok y) vs rs /\
                 q = or_last rs q0).

Lemma keys_iff : forall opts s0 p0 q0 s p q,
  foldM image_set_key opts (s0, p0, q0) = Ok (s, p, q) <-> keys_state opts s0 p0 q0 s p q.
Proof.
  induction opts as [|t opts IH]; intros s0 p0 q0 s p q; cbn [foldM].
  - unfold keys_state. split.
    + intro H. inv H. repeat split; exists [], []; repeat split; constructor.
    + intros ((v1 & r1 & P1 & F1 & ->) & (v2 & r2 & P2 & F2 & ->) & (v3 & r3 & P3 & F3 & ->)).
      inv P1. inv P2. inv P3. inv F1. inv F2. inv F3. reflexivity.
  - unfold image_set_key at 1.
    destruct (strip_prefix (lit "sar=") t) as [v|] eqn:S1.
    { apply strip_iff in S1. subst t.
      assert (N2 : forall x, lit "sar=" ++ v <> lit "par=" ++ x) by (intros x X; discriminate X).
      assert (N3 : forall x, lit "sar=" ++ v <> lit "q=" ++ x) by (intros x X; discriminate X).
      split.
      - intro H. okb H st Hst. okb Hst r Hr. inv Hst. apply IH in H. apply sar_iff in Hr.
        destruct H as ((v1 & r1 & P1 & F1 & ->) & (v2 & r2 & P2 & F2 & ->) & (v3 & r3 & P3 & F3 & ->)).
        split; [|split].
        + exists (v :: v1), (r :: r1). split; [apply prefixed_here; exact P1|].
          split; [constructor; assumption|]. destruct r as [r|]; cbn; [symmetry; apply or_last_cons | reflexivity].
        + exists v2, r2. split; [apply prefixed_other; assumption | auto].
        + exists v3, r3. split; [apply prefixed_other; assumption | auto].
      - intros ((v1 & r1 & P1 & F1 & ->) & (v2 & r2 & P2 & F2 & ->) & (v3 & r3 & P3 & F3 & ->)).
        apply prefixed_here_inv in P1. destruct P1 as (vs' & -> & P1).
        inversion F1 as [|? r ? r1' Hr F1']; subst.
        apply prefixed_other_inv in P2; [|exact N2]. apply prefixed_other_inv in P3; [|exact N3].
        apply sar_iff in Hr. rewrite Hr. cbn [bind]. apply IH.
        split; [|split; [exists v2, r2; auto | exists v3, r3; auto]].
        exists vs', r1'. split; [exact P1|]. split; [exact F1'|].
        destruct r as [r|]; cbn; [apply or_last_cons | reflexivity]. }
    pose proof (strip_none _ _ S1) as N1.
    destruct (strip_prefix (lit "par=") t) as [v|] eqn:S2.
    { apply strip_iff in S2. subst t.
      assert (N3 : forall x, lit "par=" ++ v <> lit "q=" ++ x) by (intros x X; discriminate X).
      split.
      - intro H. okb H st Hst. okb Hst r Hr. inv Hst. apply IH in H. apply par_iff in Hr.
        destruct H as ((v1 & r1 & P1 & F1 & ->) & (v2 & r2 & P2 & F2 & ->) & (v3 & r3 & P3 & F3 & ->)).
        split; [|split].
        + exists v1, r1. split; [apply prefixed_other; assumption | auto].
        + exists (v :: v2), (r :: r2). split; [apply prefixed_here; exact P2|].
          split; [constructor; assumption|]. symmetry. apply or_last_cons.
        + exists v3, r3. split; [apply prefixed_other; assumption | auto].
      - intros ((v1 & r1 & P1 & F1 & ->) & (v2 & r2 & P2 & F2 & ->) & (v3 & r3 & P3 & F3 & ->)).
        apply prefixed_here_inv in P2. destruct P2 as (vs' & -> & P2).
        inversion F2 as [|? r ? r2' Hr F2']; subst.
        apply prefixed_other_inv in P1; [|exact N1]. apply prefixed_other_inv in P3; [|exact N3].
        apply par_iff in Hr. rewrite Hr. cbn [bind]. apply IH.
        split; [exists v1, r1; auto|]. split; [|exists v3, r3; auto].
        exists vs', r2'. split; [exact P2|]. split; [exact F2'|]. apply or_last_cons. }
    pose proof (strip_none _ _ S2) as N2.
    destruct (strip_prefix (lit "q=") t) as [v|] eqn:S3.
    { apply strip_iff in S3. subst t. split.
      - intro H. okb H st Hst. okb Hst r Hr. inv Hst. apply IH in H. apply p_f32_iff in Hr.
        destruct H as ((v1 & r1 & P1 & F1 & ->) & (v2 & r2 & P2 & F2 & ->) & (v3 & r3 & P3 & F3 & ->)).
        split; [|split].
        + exists v1, r1. split; [apply prefixed_other; assumption | auto].
        + exists v2, r2. split; [apply prefixed_other; assumption | auto].
        + exists (v :: v3), (r :: r3). split; [apply prefixed_here; exact P3|].
          split; [constructor; assumption|]. symmetry. apply or_last_cons.
      - intros ((v1 & r1 & P1 & F1 & ->) & (v2 & r2 & P2 & F2 & ->) & (v3 & r3 & P3 & F3 & ->)).
        apply prefixed_here_inv in P3. destruct P3 as (vs' & -> & P3).
        inversion F3 as [|? r ? r3' Hr F3']; subst.
        apply prefixed_other_inv in P1; [|exact N1]. apply prefixed_other_inv in P2; [|exact N2].
        apply p_f32_iff in Hr. rewrite Hr. cbn [bind]. apply IH.
        split; [exists v1, r1; auto|]. split; [exists v2, r2; auto|].
        exists vs', r3'. split; [exact P3|]. split; [exact F3'|]. apply or_last_cons. }
    pose proof (strip_none _ _ S3) as N3. cbn [bind]. rewrite IH. unfold keys_state.
    split; intros ((v1 & r1 & P1 & F1 & ->) & (v2 & r2 & P2 & F2 & ->) & (v3 & r3 & P3 & F3 & ->)).
    + split; [exists v1, r1; split; [apply prefixed_other; assumption | auto]|].
      split; [exists v2, r2; split; [apply prefixed_other; assumption | auto]|].
      exists v3, r3; split; [apply prefixed_other; assumption | auto].
    + split; [exists v1, r1; split; [apply prefixed_other_inv in P1; assumption | auto]|].
      split; [exists v2, r2; split; [apply prefixed_other_inv in P2; assumption | auto]|].
      exists v3, r3; split; [apply prefixed_other_inv in P3; assumption | auto].
Qed.

Lemma keys_none : forall opts s p q, keys_state opts None None None s p q <->
  (exists vs rs, prefixed (lit "sar=") opts vs /\ Forall2 sar_value vs rs /\ s = last_of (somes rs)) /\
  (exists vs rs, prefixed (lit "par=") opts vs /\ Forall2 par_value vs rs /\ p = last_of rs) /\
  (exists vs rs, prefixed (lit "q=") opts vs /\ Forall2 (fun t y => parse_f32 t = Ok y) vs rs /\
                 q = last_of rs).
Proof.
  intros opts s p q. unfold keys_state.
  assert (O : forall A (l : list A), or_last l None = last_of l).
  { intros A l. unfold or_last. destruct (last_of l); reflexivity. }
  split; intros ((v1 & r1 & P1 & F1 & ->) & (v2 & r2 & P2 & F2 & ->) & (v3 & r3 & P3 & F3 & ->));
    (split; [exists v1, r1 | split; [exists v2, r2 | exists v3, r3]]); rewrite O; auto.
Qed.

Lemma set_fwd : forall s x, parse_set s = Ok x -> image_set_value s x.
Proof.
  intros s x H. unfold parse_set in H. okb H i Hi. apply braced_iff in Hi.
  unfold parse_image_set in H. okb H toks Ht. apply tokens_sound in Ht.
  destruct toks as [|xt toks]; [discriminate|].
  destruct (strip_prefix (lit "x=") xt) as [xv|] eqn:Sx; [|discriminate]. apply strip_iff in Sx. subst xt.
  okb H xr Hx. destruct toks as [|yt toks]; [discriminate|].
  destruct (strip_prefix (lit "y=") yt) as [yv|] eqn:Sy; [|discriminate]. apply strip_iff in Sy. subst yt.
  okb H yr Hy. okb H z Hz. destruct z as [[sr pr] qr]. inv H.
  exists i, xv, yv, toks. split; [exact Hi|]. split; [exact Ht|].
  cbn [set_x set_y set_sar set_par set_q].
  split; [apply xy_iff, Hx|]. split; [apply xy_iff, Hy|]. apply keys_none, keys_iff, Hz.
Qed.
Lemma set_bwd : forall s x, short (List.length s) -> image_set_value s x -> parse_set s = Ok x.
Proof.
  intros s x L (i & xt & yt & opts & Hi & Ht & Hx & Hy & Hk). unfold parse_set.
  rewrite (proj2 (braced_iff _ _ _) Hi). cbn [bind]. unfold parse_image_set.
  apply (proj2 (keys_none _ _ _ _)) in Hk. apply keys_iff in Hk.
  assert (Li : short (List.length i)).
  { unfold braced in Hi. subst s. unfold short in *. rewrite !app_length in L. lia. }
  rewrite (tokens_complete _ c_comma _ Li Ht). cbn [bind].
  rewrite (proj2 (strip_iff (lit "x=") _ xt) eq_refl).
  apply xy_iff in Hx, Hy. rewrite Hx. cbn [bind].
  rewrite (proj2 (strip_iff (lit "y=") _ yt) eq_refl), Hy. cbn [bind].
  rewrite Hk. cbn [bind]. destruct x; reflexivity.
Qed.
Lemma set_starts : forall s x, image_set_value s x -> starts_with_char c_lbr s = true.
Proof. intros s x (i & _ & _ & _ & Hi & _). exact (braced_starts _ _ Hi). Qed.

Definition no_set (l : list str) : Prop :=
  match l with [] => True | t :: _ => starts_with_char c_lbr t = false end.

Lemma more_fwd : forall toks acc sets rest, more_sets acc toks = Ok (sets, rest) ->
  exists ts ss, toks = ts ++ rest /\ Forall2 image_set_value ts ss /\ sets = acc ++ ss /\ no_set rest.
Proof.
  induction toks as [|t toks IH]; intros acc sets rest H; cbn [more_sets] in H.
  - inv H. exists [], []. rewrite !app_nil_r. split; [reflexivity|]. split; [apply Forall2_nil | split; [reflexivity | exact I]].
  - destruct (starts_with_char c_lbr t) eqn:St.
    + okb H x Hx. apply set_fwd in Hx. apply IH in H. destruct H as (ts & ss & -> & F & -> & N).
      exists (t :: ts), (x :: ss). rewrite <- app_assoc. repeat split; auto.
    + inv H. exists [], []. rewrite !app_nil_r.
      split; [reflexivity|]. split; [constructor | split; [reflexivity | exact St]].
Qed.
Lemma more_bwd : forall ts ss acc rest, Forall (fun t => short (List.length t)) ts ->
  Forall2 image_set_value ts ss -> no_set rest -> more_sets acc (ts ++ rest) = Ok (acc ++ ss, rest).
Proof.
  intros ts ss acc rest L F N. revert acc L.
  induction F as [|t x ts ss Hx F IH]; intros acc L; cbn [app].
  - rewrite app_nil_r. destruct rest as [|r rest]; [reflexivity|]. cbn in N. cbn [more_sets]. rewrite N. reflexivity.
  - inversion L; subst. cbn [more_sets]. rewrite (set_starts _ _ Hx), (set_bwd _ _ H1 Hx). cbn [bind].
    rewrite IH by assumption. rewrite <- app_assoc. reflexivity.
Qed.
Lemma list_fwd : forall toks l rest, parse_image_set_list toks = Ok (l, rest) ->
  exists ts, toks = ts ++ rest /\ image_list_value ts l /\ (no_set rest \/ l = SetsWildcard).
Proof.
  intros toks l rest H. unfold parse_image_set_list in H. destruct toks as [|t toks]; [discriminate|].
  destruct (str_eqb_spec t (lit "*")) as [->|N].
  - inv H. exists [lit "*"]. split; [reflexivity|]. split; [left; auto | auto].
  - okb H x Hx. okb H z Hz. destruct z as [sets rest']. inv H. apply set_fwd in Hx.
    apply more_fwd in Hz. destruct Hz as (ts & ss & -> & F & -> & Nr).
    exists (t :: ts). split; [reflexivity|]. split; [|auto]. right. split; [discriminate|].
    exists (x :: ss). split; [constructor; assumption | reflexivity].
Qed.
Lemma list_bwd : forall ts l rest, Forall (fun t => short (List.length t)) ts ->
  image_list_value ts l -> no_set rest -> parse_image_set_list (ts ++ rest) = Ok (l, rest).
Proof.
  intros ts l rest L [[-> ->] | (Ne & sets & F & ->)] N; [reflexivity|].
  inversion F as [|t x ts' ss Hx F']; subst; [congruence|]. inversion L; subst.
  cbn [app parse_image_set_list].
  destruct (str_eqb_spec t (lit "*")) as [->|_].
  { apply set_starts in Hx. discriminate. }
  rewrite (set_bwd _ _ H1 Hx). cbn [bind]. rewrite more_bwd with (ss := ss) by assumption. reflexivity.
Qed.

Lemma image_fwd : forall v a, parse_image_attr (trim v) = Ok a ->
  exists x, a = AImageAttr x /\ image_attr_value v x.
Proof.
  intros v a H. unfold parse_image_attr in H. okb H toks Ht. apply tokens_sound in Ht.
  destruct toks as [|t0 toks]; [discriminate|]. okb H pt Hpt. apply payload_iff in Hpt.
  destruct toks as [|t1 toks]; [discriminate|]. okb H dir Hdir. apply single_direction_iff in Hdir.
  okb H z Hz. destruct z as [l1 rest]. apply list_fwd in Hz. destruct Hz as (ts & -> & Hl & Nr).
  okb H z Hz. destruct z as [l2 rest2]. destruct rest2; [|discriminate]. inv H.
  eexists. split; [reflexivity|].
  assert (M : match rest with
    | [] => l2 = Sets []
    | d2 :: second =>
        is_word d2 (single_direction_name (match dir with Send => Recv | Recv => Send end)) /\
        image_list_value second l2
    end).
  { destruct rest as [|d2 rest]; [inv Hz; reflexivity|]. okb Hz dd Hd. apply single_direction_iff in Hd.
    destruct (single_direction_eqb dd dir) eqn:Ed; [discriminate|].
    apply list_fwd in Hz. destruct Hz as (ts2 & Er & Hl2 & _). rewrite app_nil_r in Er. subst ts2.
    split; [|exact Hl2]. destruct dd, dir; try discriminate; exact Hd. }
  exists (trim v), t0, t1, ts, rest, dir, l1, l2.
  split; [apply core_trim_self|]. split; [exact Ht|].
  split; [destruct dir; exact Hpt|]. split; [exact Hdir|]. split; [exact Hl|]. split; [exact M|].
  destruct dir; split; reflexivity.
Qed.

Lemma trim_short : forall v, short (List.length v) -> short (List.length (trim v)).
Proof.
  intros v L. destruct (core_trim_self v) as (w1 & w2 & Ev & _).
  unfold short in *. rewrite Ev in L. rewrite !app_length in L. lia.
Qed.
Lemma tokens_short : forall s sep r, short (List.length s) -> bracket_tokens sep s r ->
  Forall (fun t => short (List.length t)) r.
Proof.
  intros s sep r L B. pose proof (tokens_complete _ _ _ L B) as P. apply Forall_forall. intros t I.
  pose proof (parse_tokens_length _ _ _ _ P I). unfold short in *. lia.
Qed.

Lemma image_bwd : forall v x, short (List.length v) -> image_attr_value v x ->
  parse_image_attr (trim v) = Ok (AImageAttr x).
Proof.
  intros v x L (t & pt & d & first & more & dir & l1 & l2 & C & B & Hpt & Hd & Hl & M & R).
  apply core_trim in C. subst t. apply trim_short in L. unfold parse_image_attr.
  rewrite (tokens_complete _ c_space _ L B). cbn [bind]. pose proof (tokens_short _ _ _ L B) as Ls.
  apply payload_iff in Hpt. rewrite Hpt. cbn [bind]. apply single_direction_iff in Hd. rewrite Hd.
  cbn [bind]. inversion Ls as [|? ? _ Ls1]; subst. inversion Ls1 as [|? ? _ Ls2]; subst.
  apply Forall_app in Ls2. destruct Ls2 as [Lf Lm].
  assert (Nm : no_set more).
  { destruct more as [|d2 second]; [exact I|]. destruct M as [M _]. unfold is_word in M. subst d2.
    destruct dir; reflexivity. }
  rewrite (list_bwd _ _ _ Lf Hl Nm). cbn [bind].
  destruct more as [|d2 second].
  - subst l2. cbn [bind]. destruct x, dir; cbn in R; destruct R as [-> ->]; reflexivity.
  - destruct M as [Hd2 Hl2]. apply single_direction_iff in Hd2. rewrite Hd2. cbn [bind].
    assert (Q : single_direction_eqb (match dir with Send => Recv | Recv => Send end) dir = false)
      by (destruct dir; reflexivity).
    rewrite Q. inversion Lm; subst.
    pose proof (list_bwd second l2 [] H2 Hl2 I) as P. rewrite app_nil_r in P. rewrite P. cbn [bind].
    destruct x, dir; cbn in R; destruct R as [-> ->]; reflexivity.
Qed.

End WithExt.

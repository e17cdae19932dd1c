(** * Lemmas for C79: printed image attributes *)
From Coq Require Import List NArith ZArith Bool Ascii String Lia.
From Coq Require Import ZifyBool ZifyNat ZifyN.
From Verif Require Import Str Num Net Types Ext Show Address AttrParse Media Session StrLemmas NumLemmas.
From Verif Require Import SpecApi SpecDoc SpecVal SpecPrint SpecGrammar SpecRfc SpecFloat SpecRfc2 SpecRfc3.
From Verif Require Import PPanic PVal PVal7 PVal8 PVal9 PPrint3 PPrint4 PPrint7 PPrint9 PRfc PRfc9 PRfc10 PFloat PFloat2 PFloat3 PFloat4 PRfc11 PRfc12 PRfc13 PRfc14 PRfc15 Ext0.
Import ListNotations.
Open Scope N_scope.
Open Scope list_scope.

Lemma g_leads : forall c s a l, of_string s = [c] -> Forall (gen a) l -> gen (Many (Cat (Lit s) a)) (leads c l).
Proof.
  intros c s a l Q F. induction F as [|t l T F IH]; [constructor|]. change (leads c (t :: l)) with ((c :: t) ++ leads c l). constructor; [|exact IH].
  change (c :: t) with ([c] ++ t). rewrite <- Q. constructor; [constructor | exact T].
Qed.
Lemma g_leads1 : forall c s a t l, of_string s = [c] -> gen a t -> Forall (gen a) l -> gen (many1 (Cat (Lit s) a)) (leads c (t :: l)).
Proof.
  intros c s a t l Q T F. change (leads c (t :: l)) with ((c :: t) ++ leads c l). constructor; [|apply g_leads; assumption].
  change (c :: t) with ([c] ++ t). rewrite <- Q. constructor; [constructor | exact T].
Qed.
Lemma g_list : forall c s a t l, of_string s = [c] -> gen a t -> Forall (gen a) l -> gen (list_of s a) (join [c] (t :: l)).
Proof. intros c s a t l Q T F. rewrite join_leads. constructor; [exact T | apply g_leads; assumption]. Qed.

Section WithExt.
Context {E : Ext}.
Hypothesis St : std_floats E.
Definition uneven (x : f32) : Prop := ~ whole32 x.

Lemma sp_all : forall ns xs, Forall2 ratio ns xs -> Forall uneven xs -> Forall (gen spvalue) (map show_f32 xs) /\ Forall2 worth (map show_f32 xs) ns.
Proof.
  intros ns xs H. induction H as [|n x ns xs R H IH]; intro F; [split; constructor|]. inversion F as [|? ? U F']; subst.
  destruct (sp_printed St n x R U) as [A B]. destruct (IH F') as [C D]. split; constructor; assumption.
Qed.
Lemma no_sep : forall l, Forall (gen spvalue) l -> Forall (fun t => ~ In 45 t) l /\ Forall (fun t => ~ In 44 t) l.
Proof. intros l F. split; (eapply Forall_impl; [|exact F]); intros t T; apply g_spvalue, sp_calm in T; tauto. Qed.
Lemma pair_printed : forall n m x y, ratio n x -> ratio m y -> n < m -> uneven x -> uneven y ->
  gen sprange ([91] ++ show_f32 x ++ [45] ++ show_f32 y ++ [93]).
Proof.
  intros n m x y X Y L Ux Uy. destruct (sp_all [n; m] [x; y]) as [G W]; [constructor; [exact X|]; constructor; [exact Y | constructor] | constructor; [exact Ux|]; constructor; [exact Uy | constructor]|].
  replace ([91] ++ show_f32 x ++ [45] ++ show_f32 y ++ [93]) with (List.concat [lit "["; show_f32 x ++ leads 45 [show_f32 y]; lit "]"])
    by (cbn [List.concat leads flat_map]; repeat (rewrite ?app_nil_r, <- ?app_assoc; cbn [app]); reflexivity).
  destruct (no_sep _ G) as [N45 _]. inversion N45 as [|? ? N1 N2]; subst. inversion G as [|? ? G1 G2]; subst. inversion G2 as [|? ? G3 _]; subst.
  apply g_cats. constructor; [constructor|]. constructor; [|constructor; [constructor | constructor]]. apply gen_such.
  - replace (show_f32 x ++ leads 45 [show_f32 y]) with (List.concat [show_f32 x; lit "-"; show_f32 y]) by (cbn [List.concat leads flat_map app]; rewrite !app_nil_r; reflexivity).
    apply g_cats. constructor; [exact G1|]. constructor; [constructor|]. constructor; [exact G3 | constructor].
  - exists [show_f32 x; show_f32 y], [n; m]. split; [apply fields_leads; assumption|]. split; [exact W|]. destruct X as [X _]. cbn [rising]. lia.
Qed.
Lemma s_printed : forall r, s_good (Some r) -> Forall uneven (sar_floats r) -> gen srange (show_s_range r).
Proof.
  intros [x y|xs] H F; cbn [s_good] in H; cbn [sar_floats] in F.
  - destruct H as (n & m & X & Y & L). inversion F as [|? ? U F2]; subst. inversion F2 as [|? ? V _]; subst. apply gen_or_right, gen_or_left. exact (pair_printed n m x y X Y L U V).
  - destruct H as [(x & n & -> & R)|(L & ns & R & Ri)].
    + inversion F; subst. apply gen_or_left. exact (proj1 (sp_printed St n x R ltac:(assumption))).
    + destruct (sp_all ns xs R F) as [G W]. destruct xs as [|x [|y xs]]; [cbn in L; lia | cbn in L; lia|]. apply gen_or_right, gen_or_right.
      change (show_s_range (SDiscrete (x :: y :: xs))) with ([91] ++ join [44] (map show_f32 (x :: y :: xs)) ++ [93]). cbn [map] in *. rewrite join_leads.
      replace ([91] ++ (show_f32 x ++ leads 44 (show_f32 y :: map show_f32 xs)) ++ [93]) with (List.concat [lit "["; show_f32 x ++ leads 44 (show_f32 y :: map show_f32 xs); lit "]"])
        by (cbn [List.concat]; rewrite app_nil_r; reflexivity).
      destruct (no_sep _ G) as [_ N44]. inversion N44 as [|? ? N1 N2]; subst. inversion G as [|? ? G1 G2]; subst. inversion G2 as [|? ? G3 G4]; subst.
      apply g_cats. constructor; [constructor|]. constructor; [|constructor; [constructor | constructor]]. apply gen_such.
      * constructor; [exact G1|]. apply g_leads1; [reflexivity | assumption | assumption].
      * eexists _, ns. split; [apply fields_leads; assumption|]. split; assumption.
Qed.
Lemma p_printed : forall r, p_good r -> uneven (par_min r) -> uneven (par_max r) -> gen sprange (show_p_range r).
Proof. intros r (n & m & X & Y & L) U V. exact (pair_printed n m _ _ X Y L U V). Qed.

Lemma set_printed : forall s, set_good s -> Forall uneven (set_floats s) -> gen image_set_rule (show_image_set s).
Proof.
  intros s (X & Y & Sa & Pa & Qa) F. unfold set_floats in F. apply Forall_app in F. destruct F as [F1 F]. apply Forall_app in F. destruct F as [F2 F3].
  assert (K : exists ks, Forall (gen set_key_value) ks /\
    leads 44 ks = show_opt (lit ",sar=") show_s_range [] (set_sar s) ++ show_opt (lit ",par=") show_p_range [] (set_par s) ++ show_opt (lit ",q=") show_f32 [] (set_q s)).
  { assert (K3 : exists ks, Forall (gen set_key_value) ks /\ leads 44 ks = show_opt (lit ",q=") show_f32 [] (set_q s)).
    { destruct (set_q s) as [q|]; [|exists []; split; [constructor | reflexivity]]. exists [lit "q=" ++ show_f32 q]. inversion F3; subst. split.
      - constructor; [|constructor]. apply gen_or_right, gen_or_right, gen_or_left. constructor; [constructor|]. apply q_printed; auto.
      - cbn [leads flat_map show_opt]. rewrite !app_nil_r. reflexivity. }
    assert (K2 : exists ks, Forall (gen set_key_value) ks /\ leads 44 ks = show_opt (lit ",par=") show_p_range [] (set_par s)).
    { destruct (set_par s) as [p|]; [|exists []; split; [constructor | reflexivity]]. exists [lit "par=" ++ show_p_range p].
      cbn [of_opt] in F2. inversion F2 as [|? ? U F4]; subst. inversion F4 as [|? ? V _]; subst. split.
      - constructor; [|constructor]. apply gen_or_right, gen_or_left. constructor; [constructor|]. apply p_printed; auto.
      - cbn [leads flat_map show_opt]. rewrite !app_nil_r. reflexivity. }
    assert (K1 : exists ks, Forall (gen set_key_value) ks /\ leads 44 ks = show_opt (lit ",sar=") show_s_range [] (set_sar s)).
    { destruct (set_sar s) as [r|]; [|exists []; split; [constructor | reflexivity]]. exists [lit "sar=" ++ show_s_range r]. cbn [of_opt] in F1. split.
      - constructor; [|constructor]. apply gen_or_left. constructor; [constructor|]. apply s_printed; auto.
      - cbn [leads flat_map show_opt]. rewrite !app_nil_r. reflexivity. }
    destruct K1 as (k1 & A1 & B1), K2 as (k2 & A2 & B2), K3 as (k3 & A3 & B3). exists (k1 ++ k2 ++ k3). split; [apply Forall_app; split; [exact A1 | apply Forall_app; auto]|].
    rewrite !leads_app, B1, B2, B3. reflexivity. }
  destruct K as (ks & A & B). unfold show_image_set.
  match goal with |- gen _ ?t => replace t with (List.concat [lit "[x="; show_xy_range (set_x s); lit ",y="; show_xy_range (set_y s); leads 44 ks; lit "]"]) end.
  - apply g_cats. constructor; [constructor|]. constructor; [exact X|]. constructor; [constructor|]. constructor; [exact Y|].
    constructor; [apply g_leads; [reflexivity | exact A]|]. constructor; [constructor | constructor].
  - rewrite B. cbn [List.concat]. rewrite ?app_nil_r, <- ?app_assoc. reflexivity.
Qed.
Lemma list_printed : forall l, list_good l -> Forall uneven (list_floats l) ->
  maybe_sets l = Some l /\ gen image_list_rule (show_image_set_list l).
Proof.
  intros [sets|] H F; [|split; [reflexivity | apply gen_or_left; constructor]]. destruct H as [Ne G]. cbn [list_floats] in F.
  destruct sets as [|s sets]; [congruence|]. split; [reflexivity|]. apply gen_or_right.
  assert (K : Forall (gen image_set_rule) (map show_image_set (s :: sets))).
  { clear Ne. induction G as [|x l X G IH]; [constructor|]. cbn [flat_map] in F. apply Forall_app in F. destruct F as [F1 F2].
    cbn [map]. constructor; [apply set_printed; assumption | exact (IH F2)]. }
  cbn [map] in K. inversion K; subst. change (show_image_set_list (Sets (s :: sets))) with (join [32] (show_image_set s :: map show_image_set sets)). apply g_list; [reflexivity | assumption | assumption].
Qed.
Lemma attr_printed : forall a, attr_good a -> Forall uneven (image_floats a) -> gen rfc_imageattr (show_image_attr a).
Proof.
  intros a [P W] F. unfold image_floats in F. apply Forall_app in F. destruct F as [F1 F2]. unfold show_image_attr.
  assert (One : forall d l, gen image_list_rule l -> gen (one_way d) (of_string d ++ [32] ++ l)).
  { intros d l L. replace (of_string d ++ [32] ++ l) with (List.concat [of_string d; lit " "; l]) by (cbn [List.concat]; rewrite app_nil_r; reflexivity).
    apply g_cats. constructor; [constructor|]. constructor; [constructor|]. constructor; [exact L | constructor]. }
  assert (All : forall r, gen (alt (one_way "send") [ one_way "recv"; cats [one_way "send"; Lit " "; one_way "recv"]; cats [one_way "recv"; Lit " "; one_way "send"] ]) r ->
    gen rfc_imageattr (show_payload_type (img_pt a) ++ [32] ++ r)).
  { intros r R. replace (show_payload_type (img_pt a) ++ [32] ++ r) with (List.concat [show_payload_type (img_pt a); lit " "; r]) by (cbn [List.concat]; rewrite app_nil_r; reflexivity).
    apply g_cats. constructor; [exact P|]. constructor; [constructor|]. constructor; [exact R | constructor]. }
  destruct W as [[S R]|[[S R]|[S R]]].
  - destruct (list_printed _ S F1) as [-> G1], (list_printed _ R F2) as [-> G2]. cbn [show_opt]. rewrite !app_nil_r.
    change (lit " send " ++ show_image_set_list (img_send a)) with ([32] ++ of_string "send" ++ [32] ++ show_image_set_list (img_send a)).
    match goal with |- gen _ ?t => replace t with (show_payload_type (img_pt a) ++ [32] ++ List.concat [of_string "send" ++ [32] ++ show_image_set_list (img_send a); lit " "; of_string "recv" ++ [32] ++ show_image_set_list (img_recv a)]) end.
    + apply All, gen_or_right, gen_or_right, gen_or_left. apply g_cats. constructor; [apply One, G1|]. constructor; [constructor|]. constructor; [apply One, G2 | constructor].
    + cbn [List.concat]. rewrite ?app_nil_r, <- ?app_assoc. reflexivity.
  - destruct (list_printed _ S F1) as [-> G1]. rewrite R. cbn [show_opt maybe_sets]. rewrite !app_nil_r. apply (All (of_string "send" ++ [32] ++ show_image_set_list (img_send a))).
    apply gen_or_left, One, G1.
  - destruct (list_printed _ R F2) as [-> G2]. rewrite S. cbn [show_opt maybe_sets app]. rewrite !app_nil_r. apply (All (of_string "recv" ++ [32] ++ show_image_set_list (img_recv a))).
    apply gen_or_right, gen_or_left, One, G2.
Qed.
Lemma imageattr_again : forall t n, (Z.of_nat (List.length t) < 2147483648)%Z -> gen imageattr_line t ->
  exists a, parse_sdp_line t n = Ok {| l_number := n; l_type := TyAttribute (AImageAttr a); l_text := t |} /\
    (Forall (fun x => ~ whole32 x) (image_floats a) -> gen imageattr_line (printed_line (TyAttribute (AImageAttr a)))).
Proof.
  intros t n L H. destruct (imageattr_read St t n L H) as (a & G & A). exists a. split; [exact A|]. intro F.
  change (printed_line (TyAttribute (AImageAttr a))) with (lit "a=" ++ show_attr (AImageAttr a)).
  replace (show_attr (AImageAttr a)) with (lit "imageattr:" ++ show_image_attr a).
  2:{ cbn [show_attr]. unfold attr_to_string. assert (Ne : show_payload_type (img_pt a) <> []) by (destruct (img_pt a); [apply show_N_nonempty | discriminate]).
      unfold show_image_attr. destruct (show_payload_type (img_pt a)); [congruence | reflexivity]. }
  change (lit "a=" ++ lit "imageattr:" ++ show_image_attr a) with (of_string "a=imageattr:" ++ show_image_attr a).
  constructor; [constructor | exact (attr_printed a G F)].
Qed.
End WithExt.

(** ** A whole ratio *)
Lemma f2_one : forall {A B} (R : A -> B -> Prop) x l, Forall2 R [x] l -> exists y, l = [y] /\ R x y.
Proof. intros A B R x l H. inversion H as [|? y ? m Q1 Q2]; subst. inversion Q2; subst. eauto. Qed.
Definition whole_set : str := lit "[x=16,y=9,q=1]".
Lemma whole_key : ~ gen set_key_value (lit "q=1").
Proof.
  intro H. apply g_inv_or in H. destruct H as [H|H].
  { apply g_inv_cat in H. destruct H as (a & b & Q & A & _). apply g_inv_lit in A. subst a. discriminate Q. }
  apply g_inv_or in H. destruct H as [H|H].
  { apply g_inv_cat in H. destruct H as (a & b & Q & A & _). apply g_inv_lit in A. subst a. discriminate Q. }
  apply g_inv_or in H. destruct H as [H|H].
  { apply g_inv_cat in H. destruct H as (a & b & Q & A & B). apply g_inv_lit in A. subst a. change (lit "q=1") with (of_string "q=" ++ [49]) in Q.
    apply app_inv_head in Q. subst b. apply g_inv_or in B. destruct B as [B|B]; apply g_inv_cat in B; destruct B as (a & b & Q & A & _); apply g_inv_lit in A; subst a; discriminate Q. }
  cbn [alt] in H. apply g_inv_cats in H. destruct H as (ps & F & Q). apply f2_cons in F. destruct F as (n & r & -> & G1 & F). apply f2_cons in F. destruct F as (e & r2 & -> & G2 & F).
  apply f2_cons in F. destruct F as (w & r3 & -> & G3 & F). apply f2_nil in F. subst r3. apply g_inv_lit in G2. subst e.
  apply g_inv_such in G1. destruct G1 as [G1 K]. apply g_inv_many1_chr in G1. destruct G1 as [_ Fn]. cbn [List.concat] in Q. rewrite app_nil_r in Q.
  destruct (PRfc10.cut_once 61 (lit "q=1") (lit "q") [49] n w) as [Q1 _].
  - split; [reflexivity | cbn; lia].
  - split; [exact Q|]. intro I. rewrite Forall_forall in Fn. specialize (alnum_calm _ (Fn _ I)). tauto.
  - apply K. rewrite <- Q1. right. right. left. reflexivity.
Qed.
Lemma whole_set_rule : ~ gen image_set_rule whole_set.
Proof.
  intro H.
  assert (Q : exists xt yt ks, whole_set = [91] ++ ((lit "x=" ++ xt) ++ leads 44 ((lit "y=" ++ yt) :: ks)) ++ [93] /\ gen xyrange xt /\ gen xyrange yt /\ Forall (gen set_key_value) ks).
  { remember whole_set as t eqn:T. clear T. pieces H. match goal with G : gen (Many _) _ |- _ => apply (g_inv_leads 44) in G; [|reflexivity]; destruct G as (ks & Fk & ->) end.
    exists x0, x2, ks. split; [|auto]. cbn [List.concat leads flat_map]. repeat (rewrite ?app_nil_r, <- ?app_assoc; cbn [app]). reflexivity. }
  destruct Q as (xt & yt & ks & Q & Hx & Hy & Hk).
  change whole_set with ([91] ++ lit "x=16,y=9,q=1" ++ [93]) in Q. apply app_inv_head, app_inv_tail in Q.
  assert (Ko : Forall item ((lit "x=" ++ xt) :: (lit "y=" ++ yt) :: ks)).
  { constructor; [apply g_xyrange; [calms | exact Hx]|]. constructor; [apply g_xyrange; [calms | exact Hy]|]. eapply Forall_impl; [|exact Hk]. intros o O. apply (g_key ext0_std), O. }
  assert (C : Forall (fun t => ~ In 44 t) ((lit "x=" ++ xt) :: (lit "y=" ++ yt) :: ks)).
  { apply Forall_forall. intros o O. rewrite Forall_forall in Ko. destruct (Ko o O) as [Cm|(p & a & l & -> & _)]; [apply calm_no; auto|]. exfalso.
    assert (I : In 91 (lit "x=16,y=9,q=1")).
    { rewrite Q. destruct O as [O|O]; [apply in_app_iff; left; rewrite O; apply in_app_iff; right; left; reflexivity|].
      apply in_app_iff. right. unfold leads. apply in_flat_map. eexists. split; [exact O|]. right. apply in_app_iff. right. left. reflexivity. }
    cbn in I. lia. }
  inversion C as [|? ? C1 C2]; subst. assert (Fd : fields 44 (lit "x=16,y=9,q=1") ((lit "x=" ++ xt) :: (lit "y=" ++ yt) :: ks)) by (rewrite Q; apply fields_leads; assumption). apply fields_split in Fd. vm_compute in Fd.
  injection Fd as _ _ Fd. subst ks. inversion Hk as [|? ? K _]; subst. exact (whole_key K).
Qed.
Lemma whole_list : ~ gen image_list_rule whole_set.
Proof.
  intro H. apply g_inv_or in H. destruct H as [H|H]; [apply g_inv_lit in H; discriminate H|].
  apply (g_inv_list 32) in H; [|reflexivity]. destruct H as (u & us & F & Q). inversion F as [|? ? U _]; subst. destruct us as [|v us].
  - cbn [leads flat_map] in Q. rewrite app_nil_r in Q. rewrite <- Q in U. exact (whole_set_rule U).
  - assert (I : In 32 whole_set) by (rewrite Q; apply in_app_iff; right; left; reflexivity). cbn in I. lia.
Qed.
Definition whole_line : str := lit "a=imageattr:97 send [x=16,y=9,q=1]".
Lemma whole_line_rule : ~ gen imageattr_line whole_line.
Proof.
  intro H. apply g_inv_cat in H. destruct H as (x & v & Q & X & H). apply g_inv_lit in X. subst x.
  change whole_line with (of_string "a=imageattr:" ++ lit "97 send " ++ whole_set) in Q. apply app_inv_head in Q. subst v.
  assert (K : exists pt r, lit "97 send " ++ whole_set = pt ++ 32 :: r /\ gen (Or (Lit "*") (at_most 127)) pt /\
    gen (alt (one_way "send") [ one_way "recv"; cats [one_way "send"; Lit " "; one_way "recv"]; cats [one_way "recv"; Lit " "; one_way "send"] ]) r).
  { remember (lit "97 send " ++ whole_set) as t eqn:T. clear T. pieces H. exists x, x1. split; [cbn [List.concat]; rewrite app_nil_r; reflexivity | auto]. }
  destruct K as (pt & r & Q & P & R).
  assert (N : ~ In 32 pt).
  { apply g_inv_or in P. destruct P as [P|P]; [apply g_inv_lit in P; subst pt; cbn; lia|]. apply PRfc.g_at_most in P. destruct P as (_ & F & _).
    apply dec_no; [exact F | nodec]. }
  destruct (PRfc10.cut_once 32 (lit "97 send " ++ whole_set) (lit "97") (lit "send " ++ whole_set) pt r) as [_ <-].
  - split; [reflexivity | cbn; lia].
  - split; assumption.
  - apply g_inv_alt in R. destruct R as (rule & I & G).
    assert (One : forall d t, gen (one_way d) t -> exists u, t = of_string d ++ 32 :: u /\ gen image_list_rule u).
    { intros d t K. pieces K. eexists. split; [|eassumption]. cbn [List.concat]. rewrite app_nil_r. reflexivity. }
    assert (Two : forall d d' t, gen (cats [one_way d; Lit " "; one_way d']) t -> exists u u', t = (of_string d ++ 32 :: u) ++ 32 :: of_string d' ++ 32 :: u').
    { intros d d' t K. pieces K. apply One in G0, G2. destruct G0 as (u & -> & _), G2 as (u' & -> & _). exists u, u'. cbn [List.concat]. rewrite app_nil_r. reflexivity. }
    destruct I as [<-|[<-|[<-|[<-|[]]]]].
    + apply One in G. destruct G as (u & Q2 & L). change (lit "send " ++ whole_set) with (of_string "send" ++ 32 :: whole_set) in Q2. apply app_inv_head in Q2. injection Q2 as Q2. subst u. exact (whole_list L).
    + apply One in G. destruct G as (u & Q2 & L). discriminate Q2.
    + apply Two in G. destruct G as (u & u' & Q2). change (lit "send " ++ whole_set) with (of_string "send" ++ 32 :: whole_set) in Q2.
      rewrite <- app_assoc in Q2. apply app_inv_head in Q2. cbn [app] in Q2. injection Q2 as Q2. assert (I : In 32 whole_set) by (rewrite Q2; apply in_app_iff; right; left; reflexivity). cbn in I. lia.
    + apply Two in G. destruct G as (u & u' & Q2). discriminate Q2.
Qed.
Section Whole.
Context {E : Ext}.
Hypothesis St : std_floats E.
Definition whole_attr : image_attr :=
  {| img_pt := PayloadType 97;
     img_send := Sets [{| set_x := XyDiscrete [16]; set_y := XyDiscrete [9]; set_sar := None; set_par := None; set_q := Some 1065353216 |}];
     img_recv := Sets [] |}.
Lemma one_parsed : parse_f32 (lit "1.0") = Ok 1065353216.
Proof. apply (proj1 St), (proj1 ext0_std). vm_compute. reflexivity. Qed.
Lemma one_shown : show_f32 1065353216 = lit "1".
Proof.
  transitivity (Ext0.show_float 23 8 1065353216); [|vm_compute; reflexivity]. symmetry. apply show32; [reflexivity|].
  apply (proj1 (proj2 (proj2 (proj2 (proj2 St))))). reflexivity.
Qed.
Lemma whole_printed : printed_line (TyAttribute (AImageAttr whole_attr)) = whole_line.
Proof. pose proof one_shown as P.
  change (printed_line (TyAttribute (AImageAttr whole_attr))) with (lit "a=" ++ attr_to_string TImageAttr (show_image_attr whole_attr)).
  assert (Q : show_image_attr whole_attr = lit "97 send [x=16,y=9,q=1]").
  { unfold show_image_attr, whole_attr. cbn [img_send img_recv img_pt maybe_sets show_opt show_image_set_list map join]. unfold show_image_set. cbn [set_q set_x set_y set_sar set_par show_opt].
    rewrite P. vm_compute. reflexivity. }
  rewrite Q. vm_compute. reflexivity. Qed.
Lemma whole_parsed : forall n, parse_sdp_line (lit "a=imageattr:97 send [x=16,y=9,q=1.0]") n =
  Ok {| l_number := n; l_type := TyAttribute (AImageAttr whole_attr); l_text := lit "a=imageattr:97 send [x=16,y=9,q=1.0]" |}.
Proof.
  intro n. apply line_iff; [cbn; lia|]. split; [reflexivity|]. split; [reflexivity|]. cbn [l_type].
  exists [], 97, [], (lit "imageattr:97 send [x=16,y=9,q=1.0]"). split; [reflexivity|]. split; [constructor|]. split; [constructor|]. split; [reflexivity|].
  exists (lit "imageattr:97 send [x=16,y=9,q=1.0]"). split; [apply core_self; [exists 105; eexists; split; reflexivity | change (ends_solid (lit "imageattr:97 send [x=16,y=9,q=1.0" ++ [93])); exists 93; eexists; split; reflexivity]|].
  right. exists (lit "imageattr"), (lit "97 send [x=16,y=9,q=1.0]"). split; [split; [reflexivity | cbn; lia]|]. split; [exact (proj2 (proj2 (name_word (AImageAttr whole_attr))))|].
  change (image_attr_value (lit "97 send [x=16,y=9,q=1.0]") whole_attr).
  exists (lit "97 send [x=16,y=9,q=1.0]"), (lit "97"), (lit "send"), [lit "[x=16,y=9,q=1.0]"], [], Send, (img_send whole_attr), (Sets []).
  split; [apply core_self; [exists 57; eexists; split; reflexivity | change (ends_solid (lit "97 send [x=16,y=9,q=1.0" ++ [93])); exists 93; eexists; split; reflexivity]|].
  split. { change (bracket_tokens 32 (lit "97" ++ leads 32 [lit "send"; lit "[x=16,y=9,q=1.0]"]) [lit "97"; lit "send"; lit "[x=16,y=9,q=1.0]"]).
    apply tokens_of. constructor; [apply single; [cbn; lia | reflexivity]|]. constructor; [apply single; [cbn; lia | reflexivity]|]. constructor; [|constructor]. apply single; [cbn; lia | reflexivity]. }
  split. { exists (lit "97"). split; [left; reflexivity|]. split; [discriminate|]. split; [repeat constructor; unfold is_digit; lia|]. split; [reflexivity | vm_compute; discriminate]. }
  split; [reflexivity|]. split.
  { right. split; [discriminate|]. eexists. split; [|reflexivity]. constructor; [|constructor].
    exists (lit "x=16,y=9,q=1.0"), (lit "16"), (lit "9"), [lit "q=1.0"]. split; [reflexivity|].
    split. { change (bracket_tokens 44 (lit "x=16" ++ leads 44 [lit "y=9"; lit "q=1.0"]) [lit "x=16"; lit "y=9"; lit "q=1.0"]).
      apply tokens_of. repeat (constructor; [apply single; [cbn; lia | reflexivity]|]). constructor. }
    split. { left. exists 16. split; [|reflexivity]. apply (proj2 (g_xyvalue (lit "16") ltac:(apply (gen_cat _ _ [49] [54]); [constructor; lia | apply PRfc9.g_row; [repeat constructor; unfold dec; lia | cbn; lia]]))). }
    split. { left. exists 9. split; [|reflexivity]. apply (proj2 (g_xyvalue (lit "9") ltac:(apply (gen_cat _ _ [57] []); [constructor; lia | apply PRfc9.g_row; [constructor | cbn; lia]]))). }
    split. { exists [], []. split; [constructor; [discriminate | constructor]|]. split; [constructor | reflexivity]. }
    split. { exists [], []. split; [constructor; [discriminate | constructor]|]. split; [constructor | reflexivity]. }
    exists [lit "1.0"], [1065353216]. split; [apply (prefixed_here (lit "q=") (lit "1.0") [] []); constructor|]. split; [constructor; [exact one_parsed | constructor] | reflexivity]. }
  split; [reflexivity|]. split; reflexivity.
Qed.
End Whole.
Lemma whole_source : gen imageattr_line (lit "a=imageattr:97 send [x=16,y=9,q=1.0]").
Proof.
  apply (gen_cat _ _ (lit "a=imageattr:") (lit "97 send [x=16,y=9,q=1.0]")); [constructor|].
  by_pieces [lit "97"; lit " "; lit "send [x=16,y=9,q=1.0]"].
  apply gen_or_left. by_pieces [lit "send"; lit " "; lit "[x=16,y=9,q=1.0]"]. apply gen_or_right, g_one.
  by_pieces [lit "[x="; lit "16"; lit ",y="; lit "9"; lit ",q=1.0"; lit "]"].
  - apply gen_or_left. apply (gen_cat _ _ [49] [54]); [constructor; lia | apply PRfc9.g_row; [repeat constructor; unfold dec; lia | cbn; lia]].
  - apply gen_or_left. apply (gen_cat _ _ [57] []); [constructor; lia | apply PRfc9.g_row; [constructor | cbn; lia]].
  - apply (g_leads 44 "," set_key_value [lit "q=1.0"]); [reflexivity|]. constructor; [|constructor]. apply gen_or_right, gen_or_right, gen_or_left.
    apply (gen_cat _ _ (lit "q=") (lit "1.0")); [constructor|]. apply gen_or_right. apply (gen_cat _ _ (lit "1.") [48]); [constructor|]. apply PRfc9.g_row; [repeat constructor | cbn; lia].
Qed.
Lemma whole_changed : forall E : Ext, std_floats E -> exists t a,
  gen imageattr_line t /\ (forall n, parse_sdp_line t n = Ok {| l_number := n; l_type := TyAttribute (AImageAttr a); l_text := t |}) /\
  ~ gen imageattr_line (printed_line (TyAttribute (AImageAttr a))).
Proof.
  intros E St. exists (lit "a=imageattr:97 send [x=16,y=9,q=1.0]"), whole_attr. split; [exact whole_source|]. split; [exact (whole_parsed St)|].
  rewrite (whole_printed St). exact whole_line_rule.
Qed.

(** * Lemmas for C53: printed attributes, lines and sessions are derived by the grammar *)
From Coq Require Import List NArith ZArith Lia Bool Ascii String.
From Coq Require Import ZifyBool ZifyNat ZifyN.
From Verif Require Import Str Num Net Types Ext Show Address AttrParse Media Session.
From Verif Require Import SpecApi SpecDoc SpecVal SpecItems SpecPrint SpecGrammar.
From Verif Require Import StrLemmas NumLemmas NetLemmas PVal PVal2 PVal8 PVal9 PGram PGram2.
Import ListNotations.
Open Scope N_scope.
Open Scope list_scope.

Section WithExt.
Context {E : Ext} (X : ext_ok E).

Lemma join_filter_words : forall l, Forall word l -> filter non_empty (map (fun s : str => s) l) = l.
Proof.
  intros l H. rewrite map_id. apply filter_all. eapply Forall_impl; [|exact H].
  intros [|c t] [N _]; [congruence | reflexivity].
Qed.
Lemma g_group : forall g, attr_wf (AGroup g) -> gen r_group (show_group g).
Proof.
  intros g W. unfold r_group, show_group. apply gen_cat; [destruct (grp_semantics g); gword|].
  cbn [attr_wf] in W. unfold show_vec. destruct (grp_tags g) as [|t l]; [constructor|].
  rewrite join_filter_words by exact W. rewrite app_nil_r.
  replace (sp ++ join sp (t :: l)) with (flat_map (fun x => [32] ++ x) (t :: l)).
  - apply g_many_map. eapply Forall_impl; [|exact W]. intros x Hx. apply gen_cat; [glit | apply g_non_blank, Hx].
  - clear. revert t. induction l as [|y l IH]; intro t; [cbn; rewrite app_nil_r; reflexivity|].
    change (join sp (t :: y :: l)) with (t ++ sp ++ join sp (y :: l)). rewrite <- IH. reflexivity.
Qed.
Lemma g_float32 : forall x, gen r_float (show_f32 x).
Proof.
  intro x. destruct (f32_show_chars _ X x) as [N C]. apply g_chars1; [exact N|].
  apply Forall_forall. intros c Hc. pose proof (proj1 (forallb_forall _ _) C c Hc) as K.
  unfold float_char in K. apply orb_true_iff in K. destruct K as [K|K]; [left; lia|]. right.
  unfold mem_N in K. apply existsb_exists in K. destruct K as (d & I & K). apply N.eqb_eq in K. subst d. exact I.
Qed.
Lemma g_float64 : forall x, gen r_float (show_f64 x).
Proof.
  intro x. destruct (f64_show_chars _ X x) as [N C]. apply g_chars1; [exact N|].
  apply Forall_forall. intros c Hc. pose proof (proj1 (forallb_forall _ _) C c Hc) as K.
  unfold float_char in K. apply orb_true_iff in K. destruct K as [K|K]; [left; lia|]. right.
  unfold mem_N in K. apply existsb_exists in K. destruct K as (d & I & K). apply N.eqb_eq in K. subst d. exact I.
Qed.

(** ** imageattr *)
Lemma g_discrete : forall {A} (show : A -> str) a l (P : A -> Prop), (forall x, P x -> gen a (show x)) ->
  l <> [] -> Forall P l ->
  gen a (show_discrete show l) \/
  gen (cats [Lit "["; a; Lit ","; list_of "," a; Lit "]"]) (show_discrete show l).
Proof.
  intros A show a l P G N F. destruct F as [|x l Hx F]; [congruence|]. destruct F as [|y l Hy F].
  - left. cbn [show_discrete]. apply G, Hx.
  - right. cbn [show_discrete]. cbn [cats].
    change (join [c_comma] (map show (x :: y :: l))) with (show x ++ [44] ++ join [44] (map show (y :: l))).
    rewrite <- !app_assoc. apply gen_cat; [glit|]. apply gen_cat; [apply G, Hx|]. apply gen_cat; [glit|].
    apply gen_cat; [|glit]. apply (g_join ","); [discriminate|]. apply Forall_map.
    constructor; [apply G, Hy|]. eapply Forall_impl; [|exact F]. exact G.
Qed.
Lemma g_xy : forall r, xy_range_range r -> gen r_xy_range (show_xy_range r).
Proof.
  intros [a b s|l] R; cbn [show_xy_range xy_range_range] in *.
  - destruct R as (Ra & Rb & Rs). eapply g_alt; [right; left; reflexivity|]. cbn [cats].
    apply gen_cat; [glit|]. apply gen_cat; [apply g_upto, Ra|]. apply gen_cat; [glit|].
    apply gen_cat; [|apply gen_cat; [apply g_upto, Rb | glit]].
    destruct s as [s|]; cbn [show_opt]; [|apply g_opt_none; reflexivity]. apply g_opt_some.
    cbn [app]. apply gen_cat; [apply g_upto, Rs | glit].
  - destruct R as [N R]. destruct (g_discrete show_N r_xy_value_text l u32) as [G|G];
      [intros x Hx; apply g_upto, Hx | exact N | exact R | |].
    + eapply g_alt; [left; reflexivity | exact G].
    + eapply g_alt; [right; right; left; reflexivity | exact G].
Qed.
Lemma g_float_range : forall a b, gen r_float_range_text ([c_lbr] ++ show_f32 a ++ [c_minus] ++ show_f32 b ++ [c_rbr]).
Proof.
  intros a b. unfold r_float_range_text. cbn [cats]. apply gen_cat; [glit|]. apply gen_cat; [apply g_float32|].
  apply gen_cat; [glit|]. apply gen_cat; [apply g_float32 | glit].
Qed.
Lemma g_sar : forall r, match r with SDiscrete l => l <> [] | SRange _ _ => True end ->
  gen r_sar_range (show_s_range r).
Proof.
  intros [a b|l] R; cbn [show_s_range].
  - eapply g_alt; [right; left; reflexivity | apply g_float_range].
  - destruct (g_discrete show_f32 r_float l (fun _ => True)) as [G|G];
      [intros x _; apply g_float32 | exact R | apply Forall_forall; intros; exact I | |].
    + eapply g_alt; [left; reflexivity | exact G].
    + eapply g_alt; [right; right; left; reflexivity | exact G].
Qed.
Lemma g_image_set : forall s, image_set_range s -> gen r_image_set_text (show_image_set s).
Proof.
  intros s (Rx & Ry & Rs & _). unfold r_image_set_text, show_image_set. cbn [cats].
  apply gen_cat; [glit|]. apply gen_cat; [apply g_xy, Rx|]. apply gen_cat; [glit|].
  apply gen_cat; [apply g_xy, Ry|].
  apply gen_cat; [apply g_show_opt; [reflexivity|]; intros r Hr; rewrite Hr in Rs; apply g_sar;
                  destruct r; [exact I | exact (proj1 Rs)]|].
  apply gen_cat; [apply g_show_opt; [reflexivity|]; intros r _; apply g_float_range|].
  apply gen_cat; [apply g_show_opt; [reflexivity|]; intros r _; apply g_float32 | glit].
Qed.
Lemma g_image_list : forall l, image_list_range l -> l <> Sets [] -> gen r_image_list (show_image_set_list l).
Proof.
  intros [l|] R N; cbn [show_image_set_list image_list_range] in *; [|apply gen_or_left; glit].
  apply gen_or_right, (g_join " ").
  - destruct l; [congruence | discriminate].
  - apply Forall_map. eapply Forall_impl; [|exact R]. exact g_image_set.
Qed.
Lemma g_image : forall i, attr_range (AImageAttr i) -> attr_wf (AImageAttr i) -> gen r_imageattr (show_image_attr i).
Proof.
  intros i (Rp & Rs & Rr) (_ & _ & W). unfold r_imageattr, show_image_attr.
  apply gen_cat; [apply g_payload, Rp|].
  assert (K : forall l, maybe_sets l = None /\ l = Sets [] \/ maybe_sets l = Some l /\ l <> Sets []).
  { intros [[|x l]|]; [left | right | right]; split; try reflexivity; discriminate. }
  destruct (K (img_send i)) as [[A B]|[A B]]; destruct (K (img_recv i)) as [[C D]|[C D]];
    rewrite A, C; cbn [show_opt]; rewrite ?app_nil_r; cbn [app].
  - exfalso. apply W. split; assumption.
  - eapply g_alt; [right; right; left; reflexivity|]. apply (g_cat _ _ (lit " recv ") (show_image_set_list (img_recv i)));
      [glit | apply g_image_list; assumption | reflexivity].
  - eapply g_alt; [right; left; reflexivity|]. apply (g_cat _ _ (lit " send ") (show_image_set_list (img_send i)));
      [glit | apply g_image_list; assumption | reflexivity].
  - eapply g_alt; [left; reflexivity|]. cbn [cats].
    apply (g_cat _ _ (lit " send ") (show_image_set_list (img_send i) ++ lit " recv " ++ show_image_set_list (img_recv i)));
      [glit | | reflexivity].
    apply gen_cat; [apply g_image_list; assumption|]. apply gen_cat; [glit | apply g_image_list; assumption].
Qed.

(** ** rid, simulcast *)
Lemma g_rid_unknown : forall t, unknown_token (fun n => Exists (is_word n) rid_names) t -> gen r_rid_unknown_text t.
Proof.
  intros t (A & n & v & [-> C] & K). unfold r_rid_unknown_text. apply gen_cat.
  - apply g_such; [|exact K]. apply g_none_of. intros c I. apply (in_two c 59 61 n I); [|exact C].
    intro J. apply A, in_or_app. left. exact J.
  - change (61 :: v) with ([61] ++ v). apply gen_cat; [glit|]. apply g_none_of. intros c I.
    apply (in_one c 59 v I). intro J. apply A, in_or_app. right. right. exact J.
Qed.
Lemma join_app : forall sep a b, a <> [] -> b <> [] -> join sep (a ++ b) = join sep a ++ sep ++ join sep b.
Proof.
  intros sep a b Ha Hb. induction a as [|x a IH]; [congruence|]. destruct a as [|y a].
  - destruct b; [congruence | reflexivity].
  - change ((x :: y :: a) ++ b) with (x :: y :: a ++ b).
    change (join sep (x :: y :: a ++ b)) with (x ++ sep ++ join sep ((y :: a) ++ b)).
    rewrite IH by discriminate. change (join sep (x :: y :: a)) with (x ++ sep ++ join sep (y :: a)).
    rewrite <- !app_assoc. reflexivity.
Qed.
Ltac in_rid b := intros ? ?; eapply (g_alt _ _ b); [pick | eassumption].
(** The parameters as one list. *)
Lemma g_rid_params : forall r, rid_range r -> rid_wf r ->
  let B := filter non_empty [show_rid_params (rid_params_of r);
                             show_vec (lit "depends=") [] [c_comma] (fun s => s) (rid_depends r)] in
  exists l, Forall (gen r_rid_restriction) l /\ join [59] B = join [59] l /\ (B = [] <-> l = []).
Proof.
  intros r (_ & R1 & R2 & R3 & R4 & R5 & R6) (_ & _ & U & D) B. set (p := rid_params_of r) in *.
  set (A := [ maybe_param (lit "max-width=") (max_width p) 0; maybe_param (lit "max-height=") (max_height p) 0;
              maybe_param (lit "max-fps=") (max_fps p) 0; maybe_param (lit "max-fs=") (rid_max_fs p) 0;
              maybe_param (lit "max-br=") (rid_max_br p) 0; maybe_param (lit "max-pps=") (max_pps p) 0 ]).
  assert (GA : Forall (gen r_rid_restriction) (filter non_empty A)).
  { apply non_empty_gen. unfold A. repeat apply Forall_cons; [..|apply Forall_nil].
    - apply (p_number _ u32_max "max-width"); [reflexivity | exact R1 |]. in_rid (r_named_number u32_max "max-width").
    - apply (p_number _ u32_max "max-height"); [reflexivity | exact R2 |]. in_rid (r_named_number u32_max "max-height").
    - apply (p_number _ u32_max "max-fps"); [reflexivity | exact R3 |]. in_rid (r_named_number u32_max "max-fps").
    - apply (p_number _ u32_max "max-fs"); [reflexivity | exact R4 |]. in_rid (r_named_number u32_max "max-fs").
    - apply (p_number _ u32_max "max-br"); [reflexivity | exact R5 |]. in_rid (r_named_number u32_max "max-br").
    - apply (p_number _ u32_max "max-pps"); [reflexivity | exact R6 |]. in_rid (r_named_number u32_max "max-pps"). }
  assert (GU : Forall (gen r_rid_restriction) (rid_unknown p)).
  { eapply Forall_impl; [|exact U]. intros t Ht. eapply (g_alt _ _ r_rid_unknown_text); [pick | apply g_rid_unknown, Ht]. }
  set (P := filter non_empty A ++ rid_unknown p).
  assert (EP : show_rid_params p = join [59] P).
  { unfold show_rid_params, non_empty_vec.
    change (filter non_empty
      [maybe_param (lit "max-width=") (max_width p) 0; maybe_param (lit "max-height=") (max_height p) 0;
       maybe_param (lit "max-fps=") (max_fps p) 0; maybe_param (lit "max-fs=") (rid_max_fs p) 0;
       maybe_param (lit "max-br=") (rid_max_br p) 0; maybe_param (lit "max-pps=") (max_pps p) 0;
       show_vec [] [] [c_semi] (fun s => s) (rid_unknown p)])
    with (filter non_empty (A ++ [show_vec [] [] [c_semi] (fun s : str => s) (rid_unknown p)])).
    rewrite filter_app. unfold P, show_vec. destruct (rid_unknown p) as [|u us] eqn:Q.
    - cbn [filter]. cbn [non_empty is_empty negb]. reflexivity.
    - rewrite map_id, app_nil_r, (filter_all non_empty (u :: us)) by
        (eapply Forall_impl; [|exact U]; intros t; apply unknown_nonempty).
      cbn [app]. assert (NE : non_empty (join [c_semi] (u :: us)) = true).
      { apply Forall_inv in U. apply unknown_nonempty in U. destruct u; [discriminate U|]. destruct us; reflexivity. }
      cbn [filter]. rewrite NE. destruct (filter non_empty A) as [|x xs]; [reflexivity|].
      rewrite !join_app by discriminate. reflexivity. }
  assert (GP : Forall (gen r_rid_restriction) P) by (apply Forall_app; split; assumption).
  set (Dl := match rid_depends r with [] => [] | _ => [show_vec (lit "depends=") [] [c_comma] (fun s => s) (rid_depends r)] end).
  assert (GD : Forall (gen r_rid_restriction) Dl).
  { unfold Dl. destruct (rid_depends r) as [|d ds] eqn:Q; constructor; [|constructor].
    eapply g_alt; [left; reflexivity|]. unfold show_vec. rewrite map_id, app_nil_r.
    apply gen_cat; [glit|]. destruct (filter non_empty (d :: ds)) as [|y ys] eqn:F; [apply g_opt_none; reflexivity|].
    apply g_opt_some, (g_join ","); [discriminate|]. rewrite <- F. apply Forall_forall. intros t Ht.
    apply filter_In in Ht. destruct Ht as [Ht N]. rewrite Forall_forall in D. destruct (D t Ht) as [D1 D2].
    apply g_none_of1; [destruct t; discriminate|]. intros c I. exact (in_two c 44 59 t I D1 D2). }
  exists (P ++ Dl). split; [apply Forall_app; split; assumption|].
  assert (ND : Dl = filter non_empty [show_vec (lit "depends=") [] [c_comma] (fun s => s) (rid_depends r)]).
  { unfold Dl, show_vec. destruct (rid_depends r); reflexivity. }
  assert (NP : P <> [] -> non_empty (show_rid_params p) = true).
  { intro N. rewrite EP. assert (F : Forall (fun t => non_empty t = true) P).
    { apply Forall_app. split.
      - apply Forall_forall. intros t Ht. apply filter_In in Ht. exact (proj2 Ht).
      - eapply Forall_impl; [|exact U]. intros t. apply unknown_nonempty. }
    destruct P as [|t l]; [congruence|]. apply Forall_inv in F.
    destruct t; [discriminate F|]. destruct l; reflexivity. }
  assert (QB : B = filter non_empty [show_rid_params p] ++ Dl) by (rewrite ND, <- filter_app; reflexivity).
  clearbody B. subst B. cbn [filter]. destruct P as [|t l] eqn:QP.
  - rewrite EP. split; [reflexivity|]. reflexivity.
  - rewrite NP by discriminate. rewrite EP. split; [|split; discriminate].
    destruct Dl as [|d ds]; [rewrite !app_nil_r; reflexivity|].
    rewrite !join_app by discriminate. reflexivity.
Qed.
Lemma g_rid : forall r, rid_range r -> rid_wf r -> gen r_rid (show_rid r).
Proof.
  intros r R W. destruct (g_rid_params r R W) as (l & G & J & N).
  unfold r_rid, show_rid. cbn [cats].
  destruct R as [Rf _]. destruct W as (W1 & (c & x & Q & Hc) & _).
  apply gen_cat.
  { apply g_such; [|exists c, x; split; assumption]. apply g_none_of1; [rewrite Q; discriminate|].
    intros d I. exact (in_one d 32 _ I W1). }
  apply gen_cat; [glit|]. apply gen_cat; [destruct (rid_direction r); gword|].
  unfold non_empty_vec.
  set (B := filter non_empty [show_rid_params (rid_params_of r);
              show_vec (lit "depends=") [] [c_comma] (fun s => s) (rid_depends r)]) in *.
  set (F := show_vec (lit "pt=") [] [c_comma] show_N (rid_formats r)).
  change (filter non_empty [F; show_rid_params (rid_params_of r);
              show_vec (lit "depends=") [] [c_comma] (fun s => s) (rid_depends r)])
    with (filter non_empty ([F] ++ [show_rid_params (rid_params_of r);
              show_vec (lit "depends=") [] [c_comma] (fun s => s) (rid_depends r)])).
  rewrite filter_app. fold B.
  assert (FB : Forall (fun t => non_empty t = true) B)
    by (apply Forall_forall; intros t Ht; apply filter_In in Ht; exact (proj2 Ht)).
  clearbody B.
  assert (GB : l <> [] -> gen (list_of ";" r_rid_restriction) (join [59] B)).
  { intro NE. rewrite J. apply (g_join ";"); assumption. }
  assert (K : forall t, t <> [] -> gen (Cat (Lit " ") (alt (list_of ";" r_rid_restriction)
               [ r_rid_formats_text; cats [r_rid_formats_text; Lit ";"; list_of ";" r_rid_restriction] ])) (sp ++ t) ->
    gen (opt (Cat (Lit " ") (alt (list_of ";" r_rid_restriction)
               [ r_rid_formats_text; cats [r_rid_formats_text; Lit ";"; list_of ";" r_rid_restriction] ])))
      match t with [] => [] | y :: ys => sp ++ y :: ys end).
  { intros [|d t] NE H; [congruence|]. apply g_opt_some, H. }
  assert (GF : rid_formats r <> [] -> gen r_rid_formats_text F).
  { intro NE. unfold F, show_vec. destruct (rid_formats r) as [|f fs] eqn:Qf; [congruence|].
    rewrite app_nil_r, filter_all.
    - apply gen_cat; [glit|]. apply (g_join ","); [discriminate|]. apply Forall_map.
      eapply Forall_impl; [|exact Rf]. intros y Hy. apply g_upto, Hy.
    - apply Forall_map, Forall_forall. intros y _. destruct (show_N y) eqn:Z; [destruct (show_N_nonempty y Z) | reflexivity]. }
  destruct (rid_formats r) as [|f fs] eqn:Qf.
  - unfold F. cbn [show_vec filter non_empty is_empty negb app].
    destruct B as [|b bs]; [apply g_opt_none; reflexivity|].
    apply (K (join [59] (b :: bs))).
    + apply Forall_inv in FB. destruct b; [discriminate FB|]. destruct bs; discriminate.
    + apply gen_cat; [glit|]. eapply g_alt; [left; reflexivity|]. apply GB. intro Z. apply N in Z. discriminate Z.
  - assert (NF : non_empty F = true) by (unfold F, show_vec; reflexivity).
    cbn [filter]. rewrite NF. destruct B as [|b bs].
    + apply (K F); [unfold F, show_vec; discriminate|]. apply gen_cat; [glit|].
      eapply g_alt; [right; left; reflexivity|]. apply GF. discriminate.
    + cbn [app]. change (join [c_semi] (F :: b :: bs)) with (F ++ [59] ++ join [59] (b :: bs)).
      apply (K (F ++ [59] ++ join [59] (b :: bs))); [unfold F, show_vec; discriminate|]. apply gen_cat; [glit|].
      eapply g_alt; [right; right; left; reflexivity|]. cbn [cats]. apply gen_cat; [apply GF; discriminate|].
      apply gen_cat; [glit|]. apply GB. intro Z. apply N in Z. discriminate Z.
Qed.

Lemma g_such_chars : forall (P : N -> Prop) (R : str -> Prop) t, Forall P t -> (forall c, In c t -> R [c]) ->
  gen (Many (Such (Chr P) R)) t.
Proof.
  intros P R t F H. rewrite <- (singles t). apply g_many. apply Forall_map, Forall_forall. intros c Hc.
  rewrite Forall_forall in F. apply g_such; [constructor; apply F, Hc | apply H, Hc].
Qed.
Lemma g_sim_id : forall i, simulcast_id_wf i -> gen r_sim_id (show_simulcast_id i).
Proof.
  intros i (A & B & C & _). unfold show_simulcast_id, r_sim_id.
  assert (K : gen (Many (Such visible (fun t => ~ In t [[44]; [59]]))) (sid_id i)).
  { apply g_such_chars; [exact A |]. intros c Hc [J|[J|[]]]; inversion J; subst c; auto. }
  destruct (sid_paused i); [|exact K]. constructor; [|exact K]. apply g_such; [constructor; reflexivity|].
  intros [J|[J|[]]]; discriminate J.
Qed.
Lemma g_sim_list : forall pre l, l <> [] -> Forall (fun v => v <> [] /\ Forall simulcast_id_wf v) l ->
  exists t, show_vec pre [] [c_semi] show_simulcast_version l = pre ++ t /\ gen r_sim_list t.
Proof.
  intros pre l N F. unfold show_vec. destruct l as [|v l'] eqn:Q; [congruence|]. rewrite <- Q in *. clear Q v l'.
  eexists. split; [rewrite app_nil_r; reflexivity|].
  destruct (filter non_empty (map show_simulcast_version l)) as [|x xs] eqn:K; [apply g_opt_none; reflexivity|].
  apply g_opt_some, (g_join ";"); [discriminate|]. rewrite <- K. apply Forall_forall. intros t Ht.
  apply filter_In in Ht. destruct Ht as [Ht Hn]. apply in_map_iff in Ht. destruct Ht as (v & <- & Hv).
  rewrite Forall_forall in F. destruct (F v Hv) as [Nv Fv].
  apply g_such; [|intro Z; rewrite Z in Hn; discriminate Hn].
  apply (g_join ","); [destruct v; [congruence | discriminate]|]. apply Forall_map.
  eapply Forall_impl; [|exact Fv]. exact g_sim_id.
Qed.
Lemma g_simulcast : forall s, attr_wf (ASimulcast s) -> gen r_simulcast (show_simulcast s).
Proof.
  intros s [F N]. unfold show_simulcast, non_empty_vec. apply Forall_app in F. destruct F as [Fs Fr].
  destruct (sim_send s) as [|v vs] eqn:Qs; destruct (sim_receive s) as [|w ws] eqn:Qr.
  - exfalso. apply N. reflexivity.
  - destruct (g_sim_list (lit "recv ") (w :: ws) ltac:(discriminate) Fr) as (t & T & G). rewrite T.
    eapply g_alt; [right; right; left; reflexivity|].
    apply (g_cat _ _ (lit "recv ") t); [glit | exact G | reflexivity].
  - destruct (g_sim_list (lit "send ") (v :: vs) ltac:(discriminate) Fs) as (t & T & G). rewrite T.
    eapply g_alt; [right; left; reflexivity|].
    apply (g_cat _ _ (lit "send ") t); [glit | exact G | reflexivity].
  - destruct (g_sim_list (lit "send ") (v :: vs) ltac:(discriminate) Fs) as (t & T & G). rewrite T.
    destruct (g_sim_list (lit "recv ") (w :: ws) ltac:(discriminate) Fr) as (u & U & H). rewrite U.
    eapply g_alt; [left; reflexivity|]. cbn [cats].
    apply (g_cat _ _ (lit "send ") (t ++ lit " recv " ++ u)); [glit | | ].
    + apply gen_cat; [exact G|]. apply gen_cat; [glit | exact H].
    + change (join sp (filter non_empty [lit "send " ++ t; lit "recv " ++ u])) with
        ((lit "send " ++ t) ++ sp ++ lit "recv " ++ u). rewrite <- app_assoc. reflexivity.
Qed.
Lemma g_rtpmap : forall r, attr_range (ARtpmap r) -> attr_wf (ARtpmap r) -> gen r_rtpmap (show_rtpmap r).
Proof.
  intros r (R1 & R2 & R3) [W1 W2]. unfold r_rtpmap, show_rtpmap. cbn [cats].
  apply gen_cat; [apply g_upto, R1|]. apply gen_cat; [glit|].
  apply gen_cat; [apply g_such_chars; [exact W1 | intros c Hc J; inversion J; subst c; auto]|].
  apply gen_cat; [glit|]. apply gen_cat; [apply g_upto, R2|].
  apply g_show_opt; [reflexivity|]. intros x Hx. rewrite Hx in R3. apply g_upto, R3.
Qed.
Lemma g_rtcp : forall r, attr_range (ARtcp r) -> attr_wf (ARtcp r) -> gen r_rtcp (show_rtcp r).
Proof.
  intros r [R _] W. unfold r_rtcp, show_rtcp. cbn [attr_wf] in W. destruct (rtcp_unicast_addr r) as [a|].
  - apply gen_cat; [apply g_upto, R|]. apply g_opt_some. apply gen_cat; [glit | apply (g_typed X), W].
  - rewrite <- (app_nil_r (show_N (rtcp_port r))). apply gen_cat; [apply g_upto, R | apply g_opt_none; reflexivity].
Qed.
Lemma g_feedback : forall f, attr_range (ARtcpfb f) -> attr_wf (ARtcpfb f) -> gen r_rtcp_fb (show_rtcp_fb f).
Proof.
  intros f R [W1 W2]. unfold r_rtcp_fb, show_rtcp_fb. cbn [cats].
  apply gen_cat; [apply g_payload, R|]. apply gen_cat; [glit|].
  destruct (fb_parameter f) as [|c p] eqn:Q.
  - cbn [is_empty]. rewrite app_nil_r.
    destruct (fb_feedback_type f); cbn [fb_parameter_ok show_rtcp_fb_type] in *; try contradiction.
    + eapply (g_alt _ _ (Lit "ccm")); [pick | glit].
    + eapply (g_alt _ _ (Lit "nack")); [pick | glit].
    + eapply (g_alt _ _ (Lit "goog-remb")); [pick | glit].
    + eapply (g_alt _ _ (Lit "transport-cc")); [pick | glit].
  - cbn [is_empty].
    assert (GE : gen r_extra (maybe_param_str sp (fb_extra f) [])).
    { unfold maybe_param_str. destruct (str_eqb (fb_extra f) []) eqn:Z; [apply g_opt_none; reflexivity|].
      destruct W2 as [W2|[_ (d & x & W2 & Hd)]]; [rewrite W2 in Z; discriminate Z|].
      apply g_opt_some. apply gen_cat; [glit|]. rewrite W2.
      apply g_such; [|exists x, d; split; [reflexivity | exact Hd]].
      apply g_chars1; [destruct x; discriminate | apply Forall_forall; intros; exact I]. }
    set (e := maybe_param_str sp (fb_extra f) []) in *. clearbody e. clear Q W2.
    set (t := c :: p) in *. clearbody t.
    destruct (fb_feedback_type f); cbn [fb_parameter_ok show_rtcp_fb_type] in *; try contradiction.
    + eapply g_alt; [left; reflexivity|]. cbn [cats].
      apply (g_cat _ _ (lit "ack ") (t ++ e)); [glit | | reflexivity]. apply gen_cat; [|exact GE].
      destruct W1 as [<-|[<-|[]]]; gword.
    + eapply g_alt; [do 2 right; left; reflexivity|]. cbn [cats].
      apply (g_cat _ _ (lit "ccm ") (t ++ e)); [glit | | reflexivity]. apply gen_cat; [|exact GE].
      destruct W1 as [<-|[<-|[<-|[<-|[]]]]]; gword.
    + eapply g_alt; [do 4 right; left; reflexivity|]. cbn [cats].
      apply (g_cat _ _ (lit "nack ") (t ++ e)); [glit | | reflexivity]. apply gen_cat; [|exact GE].
      destruct W1 as [<-|[<-|[<-|[<-|[]]]]]; gword.
    + eapply g_alt; [do 5 right; left; reflexivity|]. cbn [cats].
      apply (g_cat _ _ (lit "trr-int ") (t ++ e)); [glit | | reflexivity]. apply gen_cat; [|exact GE].
      apply g_such; [|exact W1]. apply g_chars1; [|apply Forall_forall; intros; exact I].
      destruct W1 as (n & ds & [->| ->] & NE & _); [exact NE | discriminate].
Qed.
Lemma g_ssrc : forall s, u32 (ssrc_id s) -> ssrc_wf s -> gen r_ssrc (show_ssrc s).
Proof.
  intros s R W. unfold r_ssrc, show_ssrc. apply gen_cat; [apply g_upto, R|].
  unfold ssrc_wf in W. destruct (ssrc_attribute s) as [a|].
  - apply g_opt_some. cbn [show_opt cats]. rewrite app_nil_r, <- app_assoc. apply gen_cat; [glit|].
    destruct (ssrc_value s) as [v|]; destruct W as [W _]; cbn [show_opt].
    + apply gen_cat; [apply g_none_of; intros c I; exact (in_one c 58 a I W)|].
      apply g_opt_some. apply gen_cat; [glit|]. rewrite app_nil_r. apply g_chars, Forall_forall. intros; exact I.
    + apply gen_cat; [apply g_none_of; intros c I; exact (in_one c 58 a I W)|]. apply g_opt_none. reflexivity.
  - destruct (ssrc_value s); [contradiction|]. apply g_opt_none. reflexivity.
Qed.
Lemma g_ssrc_group : forall sem l, l <> [] -> Forall (fun s => u32 (ssrc_id s)) l ->
  Forall (fun s => ssrc_attribute s = None /\ ssrc_value s = None) l ->
  gen r_ssrc_group (show_ssrc_group_semantic sem ++ sp ++ join sp (map show_ssrc l)).
Proof.
  intros sem l N R W. unfold r_ssrc_group. apply gen_cat; [destruct sem; gword|].
  assert (M : map show_ssrc l = map (fun s => show_N (ssrc_id s)) l).
  { apply map_ext_Forall. eapply Forall_impl; [|exact W]. intros s [A B]. unfold show_ssrc. rewrite A, B.
    cbn [show_opt app]. apply app_nil_r. }
  rewrite M. clear M W. destruct R as [|s l Hs R]; [congruence|]. clear N. cbn [map].
  apply (g_cat _ _ (sp ++ show_N (ssrc_id s)) (flat_map (fun s => sp ++ show_N (ssrc_id s)) l)).
  - apply gen_cat; [glit | apply g_upto, Hs].
  - apply g_many_map. eapply Forall_impl; [|exact R]. intros x Hx. apply gen_cat; [glit | apply g_upto, Hx].
  - clear. revert s. induction l as [|y l IH]; intro s; cbn [map join flat_map]; [rewrite app_nil_r; reflexivity|].
    rewrite <- !app_assoc. do 2 f_equal. exact (IH y).
Qed.

(** ** Attributes *)
Lemma g_valued : forall T s nm r, show_attr_type T = of_string nm -> In (nm, r) values ->
  (s <> [] -> gen r s) -> attr_to_string T s <> [] -> gen r_attribute (attr_to_string T s).
Proof.
  intros T s nm r A I G N. unfold attr_to_string in *. destruct s as [|c s]; [cbn [is_empty] in N; congruence|].
  cbn [is_empty]. unfold r_attribute. eapply g_alt; [right; exact (in_map _ _ _ I)|].
  cbn [cats fst snd]. rewrite A. apply gen_cat; [constructor|]. apply gen_cat; [glit|]. apply G. discriminate.
Qed.
Lemma g_flag : forall t, existsb (fun s => str_eqb (of_string s) t) flags = true -> gen r_attribute t.
Proof. intros t H. unfold r_attribute. eapply g_alt; [left; reflexivity | apply g_word, H]. Qed.
Ltac valued nm := eapply (g_valued _ _ nm); [reflexivity | unfold values; pick | intro | assumption].
Lemma g_attr : forall a, attr_range a -> attr_wf a -> show_attr a <> [] -> gen r_attribute (show_attr a).
Proof.
  intros a R W N. destruct a; cbn [show_attr] in *; try (apply g_flag; reflexivity).
  - valued "candidate"%string. apply g_candidate; assumption.
  - valued "dtls-message"%string. apply g_dtls; assumption.
  - valued "extmap"%string. apply g_extmap; assumption.
  - valued "fingerprint"%string. apply g_fingerprint; assumption.
  - valued "fmtp"%string. apply g_fmtp; assumption.
  - valued "framerate"%string. apply g_float64.
  - valued "group"%string. apply g_group; assumption.
  - valued "ice-options"%string. destruct W. apply g_non_blanks; assumption.
  - valued "ice-pacing"%string. apply g_such; [apply g_number|]. apply show_radix_length; [lia | lia |].
    change (10 ^ N.of_nat 10) with 10000000000. exact R.
  - valued "ice-pwd"%string. destruct W. apply g_text; assumption.
  - valued "ice-ufrag"%string. destruct W. apply g_text; assumption.
  - valued "identity"%string. destruct W. apply g_text; assumption.
  - valued "imageattr"%string. apply g_image; assumption.
  - valued "label"%string. destruct W. apply g_text; assumption.
  - valued "max-message-size"%string. apply g_upto, R.
  - valued "maxptime"%string. apply g_upto, R.
  - valued "mid"%string. destruct W. apply g_text; assumption.
  - valued "msid"%string. destruct W as [W1 W2]. apply gen_cat; [apply g_non_blank, W1|].
    apply g_show_opt; [reflexivity|]. intros x Hx. rewrite Hx in W2. apply g_non_blank, W2.
  - valued "msid-semantic"%string. destruct W as [W1 W2]. cbn [cats]. unfold show_msid_semantic.
    apply gen_cat; [apply g_non_blank, W1|]. apply gen_cat; [glit|].
    destruct (ms_msids _) as [|x l]; [|apply g_non_blanks; [discriminate | exact W2]].
    apply (g_non_blanks [lit "*"]); [discriminate|]. constructor; [|constructor]. split; [discriminate|].
    constructor; [reflexivity | constructor].
  - valued "ptime"%string. apply g_upto, R.
  - valued "rid"%string. apply g_rid; assumption.
  - valued "remote-candidates"%string. apply g_remote_candidate; assumption.
  - valued "rtpmap"%string. apply g_rtpmap; assumption.
  - valued "rtcp"%string. apply g_rtcp; assumption.
  - valued "rtcp-fb"%string. apply g_feedback; assumption.
  - valued "sctpmap"%string. cbn [cats]. destruct R as [R1 R2]. unfold show_sctpmap.
    apply gen_cat; [apply g_upto, R1|]. apply gen_cat; [glit | apply g_upto, R2].
  - valued "sctp-port"%string. apply g_upto, R.
  - valued "setup"%string. match goal with |- gen _ (show_setup ?s) => destruct s; gword end.
  - valued "simulcast"%string. apply g_simulcast; assumption.
  - valued "ssrc"%string. apply g_ssrc; assumption.
  - destruct R as [R1 R2]. cbn [attr_wf] in W.
    match goal with |- gen _ (attr_to_string _ (show_ssrc_group_semantic ?s) ++ sp ++ join sp (map show_ssrc ?l)) =>
      pose proof (g_ssrc_group s l R1 R2 W) as G;
      replace (attr_to_string TSsrcGroup (show_ssrc_group_semantic s) ++ sp ++ join sp (map show_ssrc l)) with
        (attr_to_string TSsrcGroup (show_ssrc_group_semantic s ++ sp ++ join sp (map show_ssrc l)))
        by (destruct s; reflexivity);
      eapply (g_valued _ _ "ssrc-group"%string); [reflexivity | unfold values; pick | intro; exact G | destruct s; discriminate]
    end.
Qed.

(** ** Lines *)
Lemma g_after : forall a c t, gen a t -> forall s, of_string s = [c; 61] -> gen (Cat (Lit s) a) (c :: 61 :: t).
Proof. intros a c t G s H. apply (g_cat _ _ [c; 61] t); [apply g_lit, H | exact G | reflexivity]. Qed.
Lemma g_bandwidth : forall b, item_range (TyBandwidth b) -> item_wf (TyBandwidth b) ->
  gen r_bandwidth_line (printed_line (TyBandwidth b)).
Proof.
  intros b R W. unfold r_bandwidth_line, printed_line. cbn [cats line_letter item_text].
  apply g_after; [|reflexivity].
  assert (K : forall t n, ~ In 58 t -> u32 n -> gen (Cat (Many (none_of ":")) (Cat (Lit ":") (upto u32_max number)))
                                             (t ++ [c_colon] ++ show_N n)).
  { intros t n H Hn. apply gen_cat; [apply g_none_of; intros c I; exact (in_one c 58 t I H)|].
    apply gen_cat; [glit | apply g_upto, Hn]. }
  destruct b as [n|n|n|t n]; cbn [show_bandwidth].
  - apply K; [intros [J|[J|[]]]; discriminate J | exact R].
  - apply K; [intros [J|[J|[]]]; discriminate J | exact R].
  - apply K; [intros [J|[J|[J|[J|[]]]]]; discriminate J | exact R].
  - destruct W as [_ [W _]]. apply K; [exact W | exact R].
Qed.
Lemma g_connection : forall c, item_wf (TyConnection c) -> gen r_connection_line (printed_line (TyConnection c)).
Proof.
  intros c ((_ & R1 & R2) & W1 & W2). unfold r_connection_line, printed_line. cbn [cats line_letter item_text].
  apply g_after; [|reflexivity]. unfold show_connection. apply gen_cat; [apply (g_typed X), W1|].
  destruct (conn_ttl c) as [t|].
  - apply g_opt_some. cbn [show_opt]. rewrite app_nil_r, <- app_assoc. apply gen_cat; [glit|].
    apply gen_cat; [apply g_upto, R1|]. apply g_show_opt; [reflexivity|]. intros x Hx. rewrite Hx in R2. apply g_upto, R2.
  - rewrite (W2 eq_refl). apply g_opt_none. reflexivity.
Qed.
Lemma g_origin : forall o, item_wf (TyOrigin o) -> gen r_origin_line (printed_line (TyOrigin o)).
Proof.
  intros o ((R1 & R2 & _) & W1 & W2). unfold r_origin_line, printed_line. cbn [cats line_letter item_text].
  apply g_after; [|reflexivity]. unfold show_origin.
  apply gen_cat; [apply g_non_blank, W1|]. apply gen_cat; [glit|].
  apply gen_cat; [apply g_upto, R1|]. apply gen_cat; [glit|].
  apply gen_cat; [apply g_upto, R2|]. apply gen_cat; [glit | apply (g_typed X), W2].
Qed.
Lemma g_fmts : forall {A} a (f : A -> str) l, l <> [] -> Forall (fun x => gen a (f x)) l ->
  gen (many1 (Cat (Lit " ") a)) (sp ++ join sp (map f l)).
Proof.
  intros A a f l N F. destruct F as [|s l Hs R]; [congruence|]. clear N. cbn [map].
  apply (g_cat _ _ (sp ++ f s) (flat_map (fun s => sp ++ f s) l)).
  - apply gen_cat; [glit | exact Hs].
  - apply g_many_map. eapply Forall_impl; [|exact R]. intros x Hx. apply gen_cat; [glit | exact Hx].
  - clear. revert s. induction l as [|y l IH]; intro s; cbn [map join flat_map]; [rewrite app_nil_r; reflexivity|].
    rewrite <- !app_assoc. do 2 f_equal. exact (IH y).
Qed.
Lemma g_port_count : forall n, u32 n -> gen (opt (Cat (Lit "/") (upto u32_max number))) (maybe_param [c_slash] n 0).
Proof.
  intros n H. unfold maybe_param. destruct (n =? 0); [apply g_opt_none; reflexivity|].
  apply g_opt_some. apply gen_cat; [glit | apply g_upto, H].
Qed.
Lemma g_media : forall m, item_wf (TyMedia m) -> gen r_media_line (printed_line (TyMedia m)).
Proof.
  intros m ((R1 & R2 & R3) & W). unfold r_media_line, printed_line. cbn [line_letter item_text].
  unfold show_media_line.
  assert (KI : forall l, l <> [] -> Forall payload_listed l ->
    show_format_list (Integers l) = join sp (map show_N l) /\
    gen r_numbers (sp ++ join sp (map show_N l))).
  { intros l N F. split.
    - cbn [show_format_list]. unfold show_vec. destruct l as [|x l'] eqn:Q; [congruence|]. rewrite <- Q.
      rewrite filter_all, app_nil_r; [reflexivity|]. apply Forall_map, Forall_forall. intros y _.
      destruct (show_N y) eqn:Z; [destruct (show_N_nonempty y Z) | reflexivity].
    - apply g_fmts; [exact N|]. eapply Forall_impl; [|exact F]. intros x [Hx _]. apply g_upto. lia. }
  assert (G1 : gen r_port (show_N (ml_port m))) by (apply g_upto, R1).
  assert (G2 : gen (lits protocols) (show_protocol_value (ml_proto m))) by (destruct (ml_proto m); gword).
  assert (AV : forall mv l, mv = lit "audio" \/ mv = lit "video" -> l <> [] /\ Forall payload_listed l ->
    gen (cats [ Lit "m="; lits ["audio"; "video"]%string; Lit " "; r_port;
            opt (Cat (Lit "/") (upto u32_max number)); Lit " "; lits protocols; r_numbers ])
      (109 :: 61 :: mv ++ sp ++ show_N (ml_port m) ++ maybe_param [c_slash] (ml_port_count m) 0 ++ sp ++
       show_protocol_value (ml_proto m) ++ sp ++ show_format_list (Integers l))).
  { intros mv l Hm [N F]. destruct (KI l N F) as [K1 K2]. rewrite K1. cbn [cats].
    apply g_after; [|reflexivity]. apply gen_cat; [destruct Hm as [-> | ->]; gword|]. apply gen_cat; [glit|].
    apply gen_cat; [exact G1|]. apply gen_cat; [apply g_port_count, R2|]. apply gen_cat; [glit|].
    apply gen_cat; [exact G2 | exact K2]. }
  destruct (ml_media m); destruct (ml_formats m) as [l|l]; try contradiction; cbn [show_media_value].
  - apply gen_or_left. apply AV; [left; reflexivity | exact R3].
  - apply gen_or_left. apply AV; [right; reflexivity | exact R3].
  - apply gen_or_right. cbn [cats].
    apply (g_cat _ _ (lit "m=application ") (show_N (ml_port m) ++ maybe_param [c_slash] (ml_port_count m) 0 ++ sp ++
       show_protocol_value (ml_proto m) ++ sp ++ show_format_list (Strings l))); [glit | | reflexivity].
    apply gen_cat; [exact G1|]. apply gen_cat; [apply g_port_count, R2|]. apply gen_cat; [glit|].
    apply gen_cat; [exact G2|]. cbn [show_format_list]. rewrite <- (map_id l) at 1.
    apply g_fmts; [exact R3|]. eapply Forall_impl; [|exact W]. exact g_non_blank.
Qed.
Lemma printed_line_derived : forall ty, item_wf ty ->
  match ty with TyAttribute a => show_attr a <> [] | _ => True end ->
  match ty with TySession t => t = [32] \/ starts_solid t /\ ends_solid t | _ => True end ->
  gen (line_rule ty) (printed_line ty).
Proof.
  intros ty W N S. destruct ty as [a|b|c|m|o|t|t|n]; cbn [line_rule].
  - destruct W as [R W]. apply g_after; [apply g_attr; assumption | reflexivity].
  - apply g_bandwidth; [exact (proj1 W) | exact W].
  - apply g_connection, W.
  - apply g_media, W.
  - apply g_origin, W.
  - apply g_after; [|reflexivity]. destruct S as [->|[S1 S2]]; [apply gen_or_left; glit | apply gen_or_right, g_text; assumption].
  - destruct W as [[R1 R2] _]. unfold r_time_line, printed_line. cbn [cats line_letter item_text].
    apply g_after; [|reflexivity]. apply gen_cat; [apply g_upto, R1|]. apply gen_cat; [glit | apply g_upto, R2].
  - destruct W as [R _]. cbn [item_range] in R. rewrite R. apply g_lit. reflexivity.
Qed.

End WithExt.

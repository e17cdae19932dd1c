(** * Proofs: printed values are read back (C11), simulcast and rid *)
From Coq Require Import List NArith ZArith Lia Bool Ascii String.
From Coq Require Import ZifyBool ZifyNat ZifyN.
From Verif Require Import Str Num Net Types Ext Show Address SpecApi SpecDoc SpecVal SpecItems SpecPrint.
From Verif Require Import StrLemmas NumLemmas NetLemmas PDoc4 PVal PVal2 PVal8 PVal9 PVal10 PVal11 PPrint PPrint2 PPrint3 PPrint4 PPrint5.
Import ListNotations.
Open Scope N_scope.
Open Scope list_scope.

Ltac fa := repeat (first [apply Forall_nil | apply Forall_cons | apply Forall_app; split]).

(** ** Joined texts *)
Lemma join_nonempty : forall sep l, l <> [] -> Forall (fun t : str => t <> []) l -> join sep l <> [].
Proof.
  intros sep [|t l] N F; [congruence|]. inversion F; subst. destruct l as [|x l]; [assumption|].
  rewrite join_cons by discriminate. intro K. apply app_eq_nil in K. destruct K. contradiction.
Qed.
Lemma join_parts : forall sep ls, Forall (Forall (fun t : str => t <> [])) ls ->
  join sep (filter non_empty (map (join sep) ls)) = join sep (List.concat ls).
Proof.
  intros sep ls F. induction F as [|b ls Hb F IH]; [reflexivity|]. cbn [map List.concat filter].
  destruct b as [|x b]; [exact IH|]. pose proof (join_nonempty sep (x :: b) ltac:(discriminate) Hb) as N.
  unfold non_empty at 1. rewrite (proj2 (is_empty_false _) N). cbn [negb].
  destruct (List.concat ls) as [|y r] eqn:K.
  - rewrite app_nil_r. assert (Z : filter non_empty (map (join sep) ls) = []).
    { clear - K. induction ls as [|c ls IH]; [reflexivity|]. cbn [List.concat] in K. apply app_eq_nil in K.
      destruct K as [-> K]. cbn [map filter]. exact (IH K). }
    rewrite Z. reflexivity.
  - assert (Z : filter non_empty (map (join sep) ls) <> []).
    { intro Z. rewrite Z in IH. change (join sep []) with (@nil BinNums.N) in IH. symmetry in IH. revert IH. apply join_nonempty; [discriminate|].
      rewrite <- K. clear - F. induction F as [|c ls H F IH]; [constructor|]. cbn [List.concat]. apply Forall_app. auto. }
    rewrite join_cons by exact Z. rewrite IH. rewrite (join_app sep (x :: b) (y :: r)) by discriminate. reflexivity.
Qed.
Lemma ends_join_last : forall sep l t, ends_solid t -> ends_solid (join sep (l ++ [t])).
Proof.
  intros sep l t H. destruct l as [|x l]; [exact H|]. rewrite join_app by discriminate. apply ends_app, ends_app, H.
Qed.
Lemma join_no : forall c sep l, ~ In c sep -> Forall (fun t => ~ In c t) l -> ~ In c (join sep l).
Proof.
  intros c sep l N F. induction F as [|t l H F IH]; [intros []|]. destruct l as [|x l]; [exact H|].
  rewrite join_cons by discriminate. intro K. apply in_app_or in K. destruct K as [K|K]; [exact (H K)|].
  apply in_app_or in K. destruct K as [K|K]; [exact (N K) | exact (IH K)].
Qed.
Lemma join_no_blank : forall sep l, no_blank sep -> Forall no_blank l -> no_blank (join sep l).
Proof.
  intros sep l N F. induction F as [|t l H F IH]; [constructor|]. destruct l as [|x l]; [exact H|].
  rewrite join_cons by discriminate. apply no_blank_app; [exact H | apply no_blank_app; assumption].
Qed.
Lemma solid_or_blank : forall t, t <> [] -> ends_solid t \/ ends_blank t.
Proof.
  intros t N. destruct (exists_last N) as (x & c & ->). destruct (is_ws c) eqn:W; [right | left]; exists c, x; auto.
Qed.
Lemma filter_nonempty_id : forall l, Forall (fun t : str => t <> []) l -> filter non_empty l = l.
Proof.
  intros l F. apply filter_all, forallb_forall. intros t Ht. unfold non_empty.
  rewrite (proj2 (is_empty_false t) (Forall_in _ _ _ F Ht)). reflexivity.
Qed.

Section WithExt.
Context {E : Ext}.
Context (X : ext_ok E).
Ltac prn := eapply prints_intro; [reflexivity | reflexivity | | ].

(** ** simulcast *)
Lemma simulcast_id_prints : forall i, simulcast_id_wf i -> simulcast_id_value (show_simulcast_id i) i.
Proof.
  intros i (_ & _ & _ & H). unfold simulcast_id_value, show_simulcast_id. destruct (sid_paused i); [reflexivity|].
  split; [reflexivity | apply H; reflexivity].
Qed.
Definition version_lossy (v : simulcast_version) : Prop :=
  v = [{| sid_id := []; sid_paused := false |}] \/ Exists (fun i => In 61 (sid_id i)) v.
Lemma id_text : forall i, simulcast_id_wf i ->
  no_blank (show_simulcast_id i) /\ ~ In 44 (show_simulcast_id i) /\ ~ In 59 (show_simulcast_id i) /\
  (~ In 61 (sid_id i) -> ~ In 61 (show_simulcast_id i)).
Proof.
  intros i (H1 & H2 & H3 & _). unfold show_simulcast_id. destruct (sid_paused i); cbn [app]; [|auto].
  split; [constructor; [reflexivity | exact H1]|].
  split; [intros [K|K]; [discriminate | exact (H2 K)]|]. split; [intros [K|K]; [discriminate | exact (H3 K)]|].
  intros H4 [K|K]; [discriminate | exact (H4 K)].
Qed.
Lemma simulcast_version_prints : forall v, v <> [] -> Forall simulcast_id_wf v -> ~ version_lossy v ->
  show_simulcast_version v <> [] /\ no_blank (show_simulcast_version v) /\ ~ In 59 (show_simulcast_version v) /\
  ~ In 61 (show_simulcast_version v) /\ simulcast_version_value (show_simulcast_version v) v.
Proof.
  intros v N F L. unfold show_simulcast_version.
  assert (Fm : forall P : str -> Prop, (forall i, In i v -> P (show_simulcast_id i)) -> Forall P (map show_simulcast_id v)).
  { intros P H. apply Forall_forall. intros t Ht. apply in_map_iff in Ht. destruct Ht as (i & <- & Hi). auto. }
  assert (F' : forall i, In i v -> simulcast_id_wf i) by (intros i Hi; exact (Forall_in _ _ _ F Hi)).
  split.
  { destruct v as [|i [|j v]]; [congruence| |].
    - cbn. intro K. apply L. left. f_equal. destruct i as [t b]. unfold show_simulcast_id in K. cbn in K.
      destruct b; [discriminate|]. cbn in K. subst t. reflexivity.
    - cbn [map]. rewrite join_cons by discriminate. intro K. apply app_eq_nil in K. destruct K as [_ K]. discriminate. }
  split; [apply join_no_blank; [fa; reflexivity|]; apply Fm; intros i Hi; apply id_text, F', Hi|].
  split; [apply join_no; [intros [K|[]]; discriminate|]; apply Fm; intros i Hi; apply id_text, F', Hi|].
  split.
  { apply join_no; [intros [K|[]]; discriminate|]. apply Fm. intros i Hi. apply id_text; [apply F', Hi|].
    intro K. apply L. right. apply Exists_exists. eauto. }
  exists (map show_simulcast_id v). split.
  - apply fields_join; [destruct v; [congruence | discriminate]|]. apply Fm. intros i Hi. apply id_text, F', Hi.
  - clear -F. induction F as [|i v Hi F IH]; [constructor|]. cbn [map]. constructor; [apply simulcast_id_prints, Hi | exact IH].
Qed.
Lemma simulcast_list_prints : forall l, l <> [] -> Forall (fun v => v <> [] /\ Forall simulcast_id_wf v) l ->
  ~ Exists version_lossy l ->
  let t := join [59] (map show_simulcast_version l) in
  (forall pre, show_vec pre [] [c_semi] show_simulcast_version l = pre ++ t) /\ word t /\ simulcast_list_value t l.
Proof.
  intros l N F L t.
  assert (F' : forall v, In v l -> show_simulcast_version v <> [] /\ no_blank (show_simulcast_version v) /\
    ~ In 59 (show_simulcast_version v) /\ ~ In 61 (show_simulcast_version v) /\
    simulcast_version_value (show_simulcast_version v) v).
  { intros v Hv. destruct (Forall_in _ _ _ F Hv) as [K1 K2]. apply simulcast_version_prints; [exact K1 | exact K2|].
    intro K. apply L, Exists_exists. eauto. }
  assert (Fm : forall P : str -> Prop, (forall i, In i l -> P (show_simulcast_version i)) -> Forall P (map show_simulcast_version l)).
  { intros P H. apply Forall_forall. intros x Ht. apply in_map_iff in Ht. destruct Ht as (i & <- & Hi). auto. }
  split; [|split].
  - intro pre. unfold show_vec. destruct l as [|v l']; [congruence|]. rewrite app_nil_r. subst t.
    rewrite filter_nonempty_id; [reflexivity|]. apply Fm. intros i Hi. apply F', Hi.
  - subst t. split.
    + apply join_nonempty; [destruct l; [congruence | discriminate]|]. apply Fm. intros i Hi. apply F', Hi.
    + apply join_no_blank; [fa; reflexivity|]. apply Fm. intros i Hi. apply F', Hi.
  - exists t, (map show_simulcast_version l). split; [|split].
    + right. split; [|reflexivity]. subst t. apply join_no; [intros [K|[]]; discriminate|]. apply Fm. intros i Hi. apply F', Hi.
    + apply fields_join; [destruct l; [congruence | discriminate]|]. apply Fm. intros i Hi. apply F', Hi.
    + clear -F'. induction l as [|v l IH]; [constructor|]. cbn [map]. constructor; [apply F'; now left|].
      apply IH. intros x Hx. apply F'. now right.
Qed.
Lemma words_app_one : forall l, Forall word l -> forall s, s = join [32] l -> words s l.
Proof. intros l F s ->. apply words_join, F. Qed.
Lemma simulcast_prints : forall s, attr_wf (ASimulcast s) -> ~ simulcast_lossy s -> prints (ASimulcast s) (show_simulcast s).
Proof.
  intros s [W N] L. apply Forall_app in W. destruct W as [W1 W2].
  assert (L1 : ~ Exists version_lossy (sim_send s)) by (intro K; apply L; unfold simulcast_lossy; apply Exists_app; now left).
  assert (L2 : ~ Exists version_lossy (sim_receive s)) by (intro K; apply L; unfold simulcast_lossy; apply Exists_app; now right).
  pose proof (fun K => simulcast_list_prints (sim_send s) K W1 L1) as H1.
  pose proof (fun K => simulcast_list_prints (sim_receive s) K W2 L2) as H2. cbv zeta in H1, H2.
  set (t1 := join [59] (map show_simulcast_version (sim_send s))) in *.
  set (t2 := join [59] (map show_simulcast_version (sim_receive s))) in *.
  assert (exists l, Forall word l /\ l <> [] /\ show_simulcast s = join [32] l /\
    forall v, words v l -> simulcast_value v s) as (l & Wl & Nl & T & V).
  { unfold show_simulcast. destruct (sim_send s) as [|v1 r1] eqn:S1.
    - destruct (sim_receive s) as [|v2 r2] eqn:S2; [elim N; reflexivity|]. rewrite <- S2 in *.
      destruct H2 as (T2 & Wt & Vt); [rewrite S2; discriminate|]. exists [lit "recv"; t2].
      split; [fa; [wrd | exact Wt]|]. split; [discriminate|]. split.
      + rewrite T2. reflexivity.
      + intros v Hv. exists (lit "recv"), t2, []. split; [exact Hv|]. exists Recv, (sim_receive s), [].
        split; [reflexivity|]. split; [exact Vt|]. split; [reflexivity|]. split; [exact S1 | reflexivity].
    - rewrite <- S1 in *. destruct H1 as (T1 & Wt1 & Vt1); [rewrite S1; discriminate|].
      destruct (sim_receive s) as [|v2 r2] eqn:S2.
      + exists [lit "send"; t1]. split; [fa; [wrd | exact Wt1]|]. split; [discriminate|]. split.
        * rewrite T1. reflexivity.
        * intros v Hv. exists (lit "send"), t1, []. split; [exact Hv|]. exists Send, (sim_send s), [].
          split; [reflexivity|]. split; [exact Vt1|]. split; [reflexivity|]. split; [reflexivity | exact S2].
      + rewrite <- S2 in *. destruct H2 as (T2 & Wt2 & Vt2); [rewrite S2; discriminate|].
        exists [lit "send"; t1; lit "recv"; t2]. split; [fa; [wrd | exact Wt1 | wrd | exact Wt2]|].
        split; [discriminate|]. split.
        * rewrite T1, T2. unfold non_empty_vec. rewrite filter_nonempty_id by (fa; discriminate).
          rewrite join_leads. unfold sp, c_space. rewrite join_leads. unfold leads. cbn [flat_map].
          rewrite !app_nil_r. change (lit "send ") with (lit "send" ++ [32]). change (lit "recv ") with (lit "recv" ++ [32]).
          rewrite <- !app_assoc. reflexivity.
        * intros v Hv. exists (lit "send"), t1, [lit "recv"; t2]. split; [exact Hv|].
          exists Send, (sim_send s), (sim_receive s). split; [reflexivity|]. split; [exact Vt1|].
          split; [split; [reflexivity | exact Vt2] | split; reflexivity]. }
  prn; rewrite T.
  - apply ends_join_words; assumption.
  - apply V, words_join, Wl.
Qed.

(** ** Tokens "name=value" *)
Definition tok (nv : str * str) : str := fst nv ++ 61 :: snd nv.
Lemma tok_cut : forall ps, Forall (fun nv => ~ In 61 (fst nv)) ps ->
  Forall2 (fun t nv => cut 61 t (fst nv) (snd nv)) (map tok ps) ps.
Proof.
  intros ps F. induction F as [|nv ps H F IH]; [constructor|]. cbn [map]. constructor; [|exact IH].
  split; [reflexivity | exact H].
Qed.
Lemma tok_nonempty : forall ps, Forall (fun t : str => t <> []) (map tok ps).
Proof.
  intro ps. apply Forall_forall. intros t Ht. apply in_map_iff in Ht. destruct Ht as (nv & <- & _) . unfold tok.
  intro K. apply app_eq_nil in K. destruct K. discriminate.
Qed.
Lemma unknown_pairs : forall known l, Forall (unknown_token known) l ->
  exists us, l = map tok us /\ Forall (fun nv => ~ known (fst nv)) us /\ Forall (fun nv => ~ In 61 (fst nv)) us /\
             Forall (fun t => ~ In 59 t) l.
Proof.
  intros known l F. induction F as [|t l (S & n & v & [-> C] & U) F (us & -> & K1 & K2 & K3)].
  - exists []. split; [reflexivity|]. split; [constructor|]. split; constructor.
  - exists ((n, v) :: us). split; [reflexivity|]. split; [constructor; assumption|].
    split; [constructor; assumption | constructor; assumption].
Qed.
Lemma others_app : forall known a b x y, others known a x -> others known b y -> others known (a ++ b) (x ++ y).
Proof. intros known a b x y A B. induction A; cbn [app]; [exact B | constructor; assumption..]. Qed.
Definition num_opt (v d : N) : option str := if v =? d then None else Some (show_N v).
Lemma param_seg : forall name n v d, name = n ++ [61] -> maybe_param name v d = join [59] (map tok (pairs [(n, num_opt v d)])).
Proof.
  intros name n v d ->. unfold maybe_param, num_opt. destruct (v =? d); [reflexivity|]. cbn. unfold tok. cbn [fst snd].
  rewrite <- app_assoc. reflexivity.
Qed.
Lemma num_printed : forall is ps d x max, given is ps (of_option (num_opt x d)) -> x <= max ->
  field_of is ps (numeral max) d x.
Proof.
  intros is ps d x max G H. eapply field_printed; [exact G|]. unfold num_opt.
  destruct (N.eqb_spec x d); [assumption | apply numeral_printed, H].
Qed.

(** ** rid *)
Definition rid_segs (p : rid_params) : list (str * option str) :=
  [ (lit "max-width", num_opt (max_width p) 0); (lit "max-height", num_opt (max_height p) 0);
    (lit "max-fps", num_opt (max_fps p) 0); (lit "max-fs", num_opt (rid_max_fs p) 0);
    (lit "max-br", num_opt (rid_max_br p) 0); (lit "max-pps", num_opt (max_pps p) 0) ].
Definition depends_text (l : list str) : str := join [44] (filter non_empty l).
Definition depends_seg (l : list str) : list (str * option str) :=
  [(lit "depends", match l with [] => None | _ => Some (depends_text l) end)].
Definition pt_tokens (l : list N) : list str :=
  match l with [] => [] | _ => [lit "pt=" ++ join [44] (map show_N l)] end.
Definition rid_tokens (r : rid) : list str :=
  pt_tokens (rid_formats r) ++ map tok (pairs (rid_segs (rid_params_of r))) ++ rid_unknown (rid_params_of r) ++
  map tok (pairs (depends_seg (rid_depends r))).
Lemma rid_text : forall r, Forall (fun t : str => t <> []) (rid_unknown (rid_params_of r)) ->
  show_rid r = rid_id r ++ leads 32 (show_single_direction (rid_direction r) ::
    match rid_tokens r with [] => [] | l => [join [59] l] end).
Proof.
  intros r U. unfold show_rid.
  assert (P : show_rid_params (rid_params_of r) =
    join [59] (map tok (pairs (rid_segs (rid_params_of r))) ++ rid_unknown (rid_params_of r))).
  { unfold show_rid_params.
    rewrite (param_seg _ (lit "max-width")) by reflexivity. rewrite (param_seg _ (lit "max-height")) by reflexivity.
    rewrite (param_seg _ (lit "max-fps")) by reflexivity. rewrite (param_seg _ (lit "max-fs")) by reflexivity.
    rewrite (param_seg _ (lit "max-br")) by reflexivity. rewrite (param_seg _ (lit "max-pps")) by reflexivity.
    assert (V : show_vec [] [] [c_semi] (fun s : str => s) (rid_unknown (rid_params_of r)) = join [59] (rid_unknown (rid_params_of r))).
    { unfold show_vec. destruct (rid_unknown (rid_params_of r)) as [|x l] eqn:K; [reflexivity|].
      rewrite map_id, filter_nonempty_id by exact U. cbn [app]. apply app_nil_r. }
    rewrite V. unfold non_empty_vec.
    match goal with |- join ?s (filter _ [join _ ?a; join _ ?b; join _ ?c; join _ ?d; join _ ?e; join _ ?f; join _ ?g]) = _ =>
      change [join [59] a; join [59] b; join [59] c; join [59] d; join [59] e; join [59] f; join [59] g]
        with (map (join [59]) [a; b; c; d; e; f; g]) end.
    rewrite join_parts by (fa; try apply tok_nonempty; exact U). cbn [List.concat]. rewrite app_nil_r, !app_assoc.
    rewrite <- !map_app, <- !pairs_app. reflexivity. }
  rewrite P.
  assert (Q : show_vec (lit "pt=") [] [c_comma] show_N (rid_formats r) = join [59] (pt_tokens (rid_formats r))).
  { unfold show_vec, pt_tokens. destruct (rid_formats r) as [|x l]; [reflexivity|]. rewrite app_nil_r.
    rewrite filter_nonempty_id; [reflexivity|]. apply Forall_forall. intros t Ht. apply in_map_iff in Ht.
    destruct Ht as (y & <- & _). apply show_N_nonempty. }
  assert (D : show_vec (lit "depends=") [] [c_comma] (fun s : str => s) (rid_depends r) =
    join [59] (map tok (pairs (depends_seg (rid_depends r))))).
  { unfold show_vec, depends_seg. destruct (rid_depends r) as [|x l]; [reflexivity|]. rewrite map_id, app_nil_r. reflexivity. }
  rewrite Q, D.
  match goal with |- context [non_empty_vec [join _ ?a; join _ ?b; join _ ?c]] =>
      change [join [59] a; join [59] b; join [59] c] with (map (join [59]) [a; b; c]) end.
  unfold non_empty_vec, c_semi. rewrite join_parts.
  - cbn [List.concat]. rewrite app_nil_r. rewrite <- (app_assoc (map tok _)). fold (rid_tokens r).
    assert (Ne : Forall (fun t : str => t <> []) (rid_tokens r)).
    { unfold rid_tokens. fa; try apply tok_nonempty; [|exact U]. unfold pt_tokens. destruct (rid_formats r); fa. discriminate. }
    destruct (rid_tokens r) as [|t l].
    + unfold leads. cbn [flat_map join]. rewrite app_nil_r. unfold sp, c_space. rewrite app_nil_r. reflexivity.
    + pose proof (join_nonempty [59] (t :: l) ltac:(discriminate) Ne) as K.
      destruct (join [59] (t :: l)) as [|c x] eqn:Ej; [congruence|].
      unfold leads. cbn [flat_map]. rewrite app_nil_r. reflexivity.
  - fa; try apply tok_nonempty; [|exact U]. unfold pt_tokens. destruct (rid_formats r); fa. discriminate.
Qed.
Lemma depends_read : forall l, l <> [] -> ~ (In [] l /\ (2 <= List.length l)%nat) ->
  Forall (fun d => ~ In 44 d) l -> fields 44 (depends_text l) l.
Proof.
  intros l N L F. unfold depends_text. destruct l as [|x [|y l]]; [congruence| |].
  - destruct x; cbn; apply fields_last; [intros [] | inversion F; assumption].
  - rewrite filter_nonempty_id.
    + apply fields_join; [discriminate | exact F].
    + apply Forall_forall. intros t Ht ->. apply L. split; [exact Ht|]. cbn [List.length]. lia.
Qed.
Lemma word_test : forall n x, is_word x n <-> str_eqb x (of_string n) = true.
Proof. intros n x. symmetry. apply str_eqb_eq. Qed.
Lemma seg_fst_no : forall c segs, Forall (fun s => ~ In c (fst s)) segs -> Forall (fun nv => ~ In c (fst nv)) (pairs segs).
Proof.
  intros c segs F. induction F as [|[n o] segs H F IH]; [constructor|]. unfold pairs. cbn [flat_map fst snd].
  apply Forall_app. split; [|exact IH]. destruct o; fa. exact H.
Qed.
Lemma seg_tok_no : forall c segs, c <> 61 -> Forall (fun s => ~ In c (fst s) /\ option_wf (fun v => ~ In c v) (snd s)) segs ->
  Forall (fun t => ~ In c t) (map tok (pairs segs)).
Proof.
  intros c segs N F. induction F as [|[n o] segs [H1 H2] F IH]; [constructor|]. unfold pairs. cbn [flat_map].
  rewrite map_app. apply Forall_app. split; [|exact IH]. destruct o; cbn; fa. unfold tok. cbn [fst snd] in *.
  intro K. apply in_app_or in K. destruct K as [K|[K|K]]; [exact (H1 K) | congruence | exact (H2 K)].
Qed.
Lemma num_opt_wf : forall (P : str -> Prop) v d, P (show_N v) -> option_wf P (num_opt v d).
Proof. intros P v d H. unfold num_opt. destruct (v =? d); [exact I | exact H]. Qed.
Lemma seg_ends : forall segs, Forall (fun s => option_wf word (snd s)) segs -> Forall ends_solid (map tok (pairs segs)).
Proof.
  intros segs F. induction F as [|[n o] segs H F IH]; [constructor|]. unfold pairs. cbn [flat_map].
  rewrite map_app. apply Forall_app. split; [|exact IH]. destruct o; cbn; fa. unfold tok. cbn [fst snd] in *.
  apply ends_app, ends_cons, word_ends, H.
Qed.
Lemma not_first : forall {A} (P : A -> Prop) l, Forall (fun x => ~ P x) l -> forall x r, l = x :: r -> ~ P x.
Proof. intros A P l F x r ->. inversion F. assumption. Qed.
Lemma rid_prints : forall r, attr_range (ARid r) -> attr_wf (ARid r) -> ~ rid_lossy r -> prints (ARid r) (show_rid r).
Proof.
  intros r [R0 (R1 & R2 & R3 & R4 & R5 & R6)] (W1 & W2 & W3 & W4) L.
  destruct (unknown_pairs _ _ W3) as (us & Eu & U1 & U2 & U3).
  assert (Un : Forall (fun t : str => t <> []) (rid_unknown (rid_params_of r))) by (rewrite Eu; apply tok_nonempty).
  set (p := rid_params_of r) in *.
  assert (L1 : ~ (In [] (rid_depends r) /\ (2 <= List.length (rid_depends r))%nat)) by (intro K; apply L; now left).
  assert (L2 : forall t, last_of (rid_unknown p ++ rid_depends r) = Some t -> ~ ends_blank t).
  { intros t Ht K. apply L. right. left. eauto. }
  assert (Dr : rid_depends r <> [] -> fields 44 (depends_text (rid_depends r)) (rid_depends r)).
  { intro K. apply depends_read; [exact K | exact L1|]. eapply Forall_impl; [|exact W4]. intros d Hd. apply Hd. }
  assert (Tn : Forall (fun t => ~ In 59 t) (rid_tokens r)).
  { unfold rid_tokens. fa.
    - unfold pt_tokens. destruct (rid_formats r) as [|x l]; fa. intro K. apply in_app_or in K. destruct K as [K|K].
      + revert K. apply not_in_b. reflexivity.
      + revert K. apply join_no; [intros [K|[]]; discriminate|]. apply Forall_forall. intros t Ht.
        apply in_map_iff in Ht. destruct Ht as (y & <- & _). apply not_in_N. reflexivity.
    - apply seg_tok_no; [discriminate|]. unfold rid_segs.
      fa; cbn [fst snd]; (split; [apply not_in_b; reflexivity | apply num_opt_wf, not_in_N; reflexivity]).
    - exact U3.
    - apply seg_tok_no; [discriminate|]. unfold depends_seg. fa. cbn [fst snd].
      split; [apply not_in_b; reflexivity|]. destruct (rid_depends r) as [|x l] eqn:K; [exact I|]. cbn [option_wf].
      unfold depends_text. apply join_no; [intros [Q|[]]; discriminate|]. apply Forall_forall. intros t Ht.
      apply filter_In in Ht. exact (proj2 (Forall_in _ _ _ W4 (proj1 Ht))). }
  assert (Ends : rid_tokens r <> [] -> ends_solid (join [59] (rid_tokens r))).
  { intro Nt. assert (exists l t, rid_tokens r = l ++ [t] /\ ends_solid t) as (l & t & -> & Ht); [|apply ends_join_last, Ht].
    unfold rid_tokens in *. fold p in Nt |- *. unfold depends_seg in *.
    destruct (rid_depends r) as [|x l] eqn:Kd.
    - cbn [pairs flat_map snd app map] in Nt |- *. rewrite app_nil_r in L2, Nt |- *.
      destruct (rid_unknown p) as [|u lu] eqn:Ku.
      + rewrite app_nil_r in Nt |- *.
        destruct (exists_last Nt) as (l & t & Eq). exists l, t. split; [exact Eq|].
        assert (F : Forall ends_solid (pt_tokens (rid_formats r) ++ map tok (pairs (rid_segs p)))).
        { apply Forall_app. split.
          - unfold pt_tokens. destruct (rid_formats r) as [|y l']; fa.
            assert (Ny : y :: l' <> []) by discriminate. destruct (exists_last Ny) as (z & w & ->). rewrite map_app.
            apply ends_app, ends_join_last, word_ends, word_N.
          - apply seg_ends. unfold rid_segs. fa; cbn [snd]; apply num_opt_wf, word_N. }
        rewrite Eq in F. apply Forall_app in F. destruct F as [_ F]. inversion F. assumption.
      + assert (Nu : u :: lu <> []) by discriminate. destruct (exists_last Nu) as (z & w & Ew). rewrite Ew in *.
        rewrite !app_assoc. eexists. exists w. split; [reflexivity|].
        destruct (solid_or_blank w) as [K|K]; [|exact K|].
        * apply Forall_app in Un. destruct Un as [_ Un]. inversion Un. assumption.
        * elim (L2 w); [apply last_of_app | exact K].
    - rewrite <- Kd in *. assert (Nd : rid_depends r <> []) by (rewrite Kd; discriminate).
      cbn [pairs flat_map fst snd app map]. rewrite !app_assoc. eexists. eexists. split; [reflexivity|].
      unfold tok. cbn [fst snd]. unfold depends_text.
      destruct (exists_last Nd) as (z & w & Ew).
      assert (B : ~ ends_blank w) by (apply L2; rewrite Ew, app_assoc; apply last_of_app).
      destruct w as [|c w].
      + assert (z = []) as ->.
        { destruct z as [|a z]; [reflexivity|]. elim L1. rewrite Ew. split; [apply in_or_app; right; now left|].
          cbn [app List.length]. rewrite app_length. cbn. lia. }
        rewrite Ew. cbn. exists 61, (lit "depends"). split; reflexivity.
      + rewrite Ew, filter_app. cbn [filter non_empty is_empty negb]. apply ends_app, ends_cons, ends_join_last.
        destruct (solid_or_blank (c :: w)) as [K|K]; [discriminate | exact K | contradiction]. }
  assert (Es : ends_solid (show_rid r)).
  { rewrite rid_text by exact Un. apply ends_app. unfold leads.
    destruct (rid_tokens r) as [|t l] eqn:K; cbn [flat_map]; rewrite app_nil_r.
    - apply ends_cons, word_ends. destruct (rid_direction r); wrd.
    - apply ends_cons, ends_app, ends_cons, Ends. discriminate. }
  prn; [exact Es|].
  set (more := match rid_tokens r with [] => [] | l => [join [59] l] end).
  exists (show_rid r), (show_single_direction (rid_direction r)), more. split; [|split; [|split]].
  - apply core_self; [|exact Es]. unfold show_rid. apply starts_app, W2.
  - rewrite rid_text by exact Un. fold more. apply parts_more; [exact W1|].
    assert (Nd : ~ In 32 (show_single_direction (rid_direction r))) by (destruct (rid_direction r); apply not_in_b; reflexivity).
    subst more. destruct (rid_tokens r); [apply parts_end, Nd|]. apply parts_more; [exact Nd | apply parts_last].
  - destruct (rid_direction r); reflexivity.
  - set (rest := map tok (pairs (rid_segs p)) ++ rid_unknown p ++ map tok (pairs (depends_seg (rid_depends r)))).
    assert (V : rid_params_value rest p (rid_depends r)).
    { set (ps := (pairs (rid_segs p) ++ us) ++ pairs (depends_seg (rid_depends r))).
      exists ps. split.
      { subst rest ps. rewrite Eu, app_assoc, <- !map_app. apply tok_cut. apply Forall_app; split; [apply Forall_app; split|].
        - apply seg_fst_no. unfold rid_segs. fa; cbn [fst]; apply not_in_b; reflexivity.
        - exact U2.
        - apply seg_fst_no. unfold depends_seg. fa; cbn [fst]; apply not_in_b; reflexivity. }
      cbv zeta.
      assert (NU : forall n, In n rid_names -> Forall (fun nv => ~ is_word (fst nv) n) us).
      { intros n Hn. eapply Forall_impl; [|exact U1]. intros nv H K. apply H, Exists_exists. eauto. }
      assert (G : forall n o, In n rid_names -> str_eqb (lit "depends") (of_string n) = false ->
        flat_map (fun s => if str_eqb (fst s) (of_string n) then of_option (snd s) else []) (rid_segs p) = of_option o ++ [] ->
        given (fun x => is_word x n) ps (of_option o)).
      { intros n o Hn Hd Ho. subst ps. rewrite <- (app_nil_r (of_option o)). apply given_app.
        - apply (given_printed _ (fun x => str_eqb x (of_string n)));
            [apply word_test | rewrite Ho; apply app_nil_r | apply NU, Hn].
        - pose proof (given_pairs (fun x => is_word x n) (fun x => str_eqb x (of_string n)) (word_test n) (depends_seg (rid_depends r))) as K.
          unfold depends_seg in K at 2. cbn [flat_map fst] in K. rewrite Hd in K. exact K. }
      split; [apply num_printed; [apply G; [cbn; auto 10 | reflexivity | reflexivity] | exact R1]|].
      split; [apply num_printed; [apply G; [cbn; auto 10 | reflexivity | reflexivity] | exact R2]|].
      split; [apply num_printed; [apply G; [cbn; auto 10 | reflexivity | reflexivity] | exact R3]|].
      split; [apply num_printed; [apply G; [cbn; auto 10 | reflexivity | reflexivity] | exact R4]|].
      split; [apply num_printed; [apply G; [cbn; auto 10 | reflexivity | reflexivity] | exact R5]|].
      split; [apply num_printed; [apply G; [cbn; auto 10 | reflexivity | reflexivity] | exact R6]|].
      split.
      { pose proof (given_pairs (fun x => is_word x "depends") (fun x => str_eqb x (of_string "depends")) (word_test "depends")
          (depends_seg (rid_depends r))) as K.
        assert (K0 : given (fun x => is_word x "depends") (pairs (rid_segs p) ++ us) []).
        { apply (given_printed _ (fun x => str_eqb x (of_string "depends")) _ _ None);
            [apply word_test | reflexivity | apply NU; cbn; auto 10]. }
        pose proof (given_app _ _ _ _ _ K0 K) as K1. cbn [app] in K1. fold ps in K1.
        unfold depends_seg in K1. cbn -[pairs ps] in K1.
        destruct (rid_depends r) as [|x l] eqn:Kd.
        - exists [], []. split; [exact K1|]. split; [constructor | reflexivity].
        - exists [depends_text (x :: l)], [x :: l]. split; [exact K1|].
          split; [constructor; [apply Dr; discriminate | constructor]|]. cbn [List.concat]. rewrite app_nil_r. reflexivity. }
      exists us. split; [|exact Eu]. subst ps. rewrite <- (app_nil_r us) at 2. apply others_app.
      - apply others_printed; [|exact U1]. unfold rid_segs, rid_names. fa; cbn [fst];
          repeat (first [apply Exists_cons_hd; reflexivity | apply Exists_cons_tl]).
      - rewrite <- (app_nil_r (pairs _)). apply others_printed; [|constructor]. unfold depends_seg, rid_names. fa; cbn [fst];
          repeat (first [apply Exists_cons_hd; reflexivity | apply Exists_cons_tl]). }
    assert (Er : rid_tokens r = pt_tokens (rid_formats r) ++ rest) by reflexivity.
    subst more. destruct (rid_tokens r) as [|t0 l0] eqn:Kt.
    + symmetry in Er. apply app_eq_nil in Er. destruct Er as [Ep Er]. rewrite Er in V. split; [|exact V].
      unfold pt_tokens in Ep. destruct (rid_formats r); [reflexivity | discriminate].
    + exists (t0 :: l0). split; [apply fields_join; [discriminate | exact Tn]|].
      destruct (rid_formats r) as [|f0 fs] eqn:Kf.
      * right. cbn [pt_tokens app] in Er. rewrite Er. split; [|split; [reflexivity | exact V]].
        intros x r' Eq. apply L. right. right. split; [exact Kf|]. fold p.
        subst rest. unfold rid_segs, num_opt in Eq.
        destruct (N.eqb_spec (max_width p) 0) as [->|]; [|discriminate]. split; [reflexivity|].
        destruct (N.eqb_spec (max_height p) 0) as [->|]; [|discriminate]. split; [reflexivity|].
        destruct (N.eqb_spec (max_fps p) 0) as [->|]; [|discriminate]. split; [reflexivity|].
        destruct (N.eqb_spec (rid_max_fs p) 0) as [->|]; [|discriminate]. split; [reflexivity|].
        destruct (N.eqb_spec (rid_max_br p) 0) as [->|]; [|discriminate]. split; [reflexivity|].
        destruct (N.eqb_spec (max_pps p) 0) as [->|]; [|discriminate]. split; [reflexivity|].
        cbn [pairs flat_map snd app map] in Eq. destruct (rid_unknown p) as [|u lu].
        -- exfalso. cbn [app] in Eq. unfold depends_seg in Eq. destruct (rid_depends r); discriminate.
        -- inversion Eq. exists x, lu. reflexivity.
      * left. cbn [pt_tokens app] in Er. exists (join [44] (map show_N (f0 :: fs))), (map show_N (f0 :: fs)), rest.
        split; [rewrite Er; reflexivity|]. split.
        -- apply fields_join; [discriminate|]. apply Forall_forall. intros t Ht. apply in_map_iff in Ht.
           destruct Ht as (y & <- & _). apply not_in_N. reflexivity.
        -- split; [|exact V]. clear -R0. induction R0 as [|y l H R IH]; [constructor|]. cbn [map].
           constructor; [|exact IH]. exists (show_N y). split; [apply word_core, word_N | apply numeral_printed, H].
Qed.
End WithExt.

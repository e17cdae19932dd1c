(** * Lemmas for C53: printed sessions are derived by the grammar *)
From Coq Require Import List NArith ZArith Lia Bool Ascii String.
From Coq Require Import ZifyBool ZifyNat ZifyN.
From Verif Require Import Str Num Net Types Ext Show Address AttrParse Media Session.
From Verif Require Import SpecApi SpecDoc SpecVal SpecItems SpecPrint SpecGrammar.
From Verif Require Import StrLemmas NumLemmas NetLemmas PVal PVal2 PVal8 PVal9.
From Verif Require Import PPrint PPrint2 PPrint3 PPrint4 PPrint6 PPrint7 PPrint10 PGram PGram2 PGram3.
Import ListNotations.
Open Scope N_scope.
Open Scope list_scope.

Lemma join_nonempty : forall sep l, (exists t : str, In t l /\ t <> []) -> join sep l <> [].
Proof.
  intros sep l (t & I & N) K. induction l as [|x l IH]; [exact I|]. destruct l as [|y l].
  - destruct I as [<-|[]]. exact (N K).
  - cbn [join] in K. apply app_eq_nil in K. destruct K as [-> K]. apply app_eq_nil in K. destruct K as [_ K].
    destruct I as [<-|I]; [congruence|]. exact (IH I K).
Qed.
Lemma non_empty_in : forall (t : str) l, In t l -> t <> [] -> join [59] (non_empty_vec l) <> [].
Proof.
  intros t l I N. apply join_nonempty. exists t. split; [|exact N]. unfold non_empty_vec. apply filter_In.
  split; [exact I|]. destruct t; [congruence | reflexivity].
Qed.
Lemma unknown_in : forall p, In (show_vec [] [] [c_comma] (fun s => s) (unknown_tokens p)) (fmtp_param_list p).
Proof. intro p. unfold fmtp_param_list. repeat first [apply in_eq | apply in_cons]. Qed.
Lemma attr_to_string_nil : forall t s, s <> [] -> attr_to_string t s <> [].
Proof.
  intros t s N K. unfold attr_to_string in K. destruct s; [congruence|]. cbn [is_empty] in K.
  apply app_eq_nil in K. destruct K as [_ K]. discriminate.
Qed.

(** ** Texts without a derivation *)
Fixpoint nullable (a : abnf) : bool :=
  match a with
  | Lit s => match s with EmptyString => true | _ => false end
  | Chr _ => false
  | Cat a b => nullable a && nullable b
  | Or a b => nullable a || nullable b
  | Many _ => true
  | Such a _ => nullable a
  end.
Lemma gen_nil : forall a t, gen a t -> t = [] -> nullable a = true.
Proof.
  intros a t G. induction G as [s|P c H|a b s t G1 IH1 G2 IH2|a b t G IH|a b t G IH|a|a s t G1 IH1 G2 IH2|a P t G IH H]; intro K;
    cbn [nullable]; try reflexivity; try discriminate.
  - destruct s; [reflexivity | discriminate].
  - apply app_eq_nil in K. destruct K as [K1 K2]. rewrite IH1, IH2 by assumption. reflexivity.
  - rewrite IH by assumption. reflexivity.
  - rewrite IH by assumption. apply orb_true_r.
  - apply IH, K.
Qed.
Lemma gen_lit_cat : forall s a t, gen (Cat (Lit s) a) t -> exists r, t = of_string s ++ r /\ gen a r.
Proof. intros s a t G. inversion G as [| |x y u v G1 G2| | | | |]; subst. inversion G1; subst. exists v. split; [reflexivity | exact G2]. Qed.
Lemma no_empty_attribute : ~ gen r_attribute_line (lit "a=").
Proof.
  intro G. apply gen_lit_cat in G. destruct G as (r & K & G).
  assert (r = []) by (destruct r; [reflexivity | discriminate]). subst r.
  apply gen_nil in G; [|reflexivity]. vm_compute in G. discriminate.
Qed.

Section WithExt.
Context {E : Ext} (X : ext_ok E).

(** ** What is not printed *)
Lemma list_shown : forall p, profile_level_id p <= 16777215 -> rtx p = None -> dtmf_tones p = [] -> encodings p = [] ->
  Forall (unknown_token (fun n => Exists (means_upper n) fmtp_names)) (unknown_tokens p) ->
  p <> fmtp_defaults -> show_fmtp_params p <> [].
Proof.
  intros p R Hr Wd We U D.
  destruct (unknown_tokens p) as [|t l] eqn:Hu.
  - rewrite (fmtp_text p Hr Wd We); rewrite Hu; [|apply Nat.le_0_l | constructor]. rewrite app_nil_r. intro Z. apply D.
    apply fmtp_printed_default; try assumption.
    destruct (pairs (fmtp_segs p)) as [|x ps]; [reflexivity|]. exfalso. revert Z. apply join_nonempty.
    exists (tok x). split; [left; reflexivity|]. unfold tok. destruct (fst x); discriminate.
  - unfold show_fmtp_params. rewrite Hr, Wd, We. cbn [non_empty is_empty negb].
    apply (non_empty_in (show_vec [] [] [c_comma] (fun s => s) (unknown_tokens p))); [apply unknown_in|].
    rewrite Hu. unfold show_vec. apply Forall_inv in U. apply unknown_nonempty in U. destruct t as [|c t]; [discriminate|].
    cbn [map filter non_empty is_empty negb app]. destruct (filter _ _); discriminate.
Qed.
Lemma params_shown : forall p, profile_level_id p <= 16777215 -> fmtp_wf p -> p <> fmtp_defaults -> show_fmtp_params p <> [].
Proof.
  intros p R W D. destruct (rtx p) as [r|] eqn:Hr.
  { unfold show_fmtp_params. rewrite Hr. unfold show_rtx. intro Z. destruct (rtx_time r); apply app_eq_nil in Z; destruct Z as [Z _]; discriminate Z. }
  destruct W as [(We & Wd & U)|[[L Q]|[T Q]]].
  - apply list_shown; assumption.
  - assert (Z : dtmf_tones p = []) by (rewrite Q; reflexivity).
    unfold show_fmtp_params. rewrite Hr, Z. cbn [non_empty is_empty negb].
    destruct (encodings p) as [|x l]; [cbn in L; lia|]. apply join_nonempty. exists (show_N x).
    split; [left; reflexivity | apply show_N_nonempty].
  - unfold show_fmtp_params. rewrite Hr. destruct (dtmf_tones p) as [|c t]; [destruct (D Q) | discriminate].
Qed.
Lemma fmtp_shown : forall f, attr_range (AFmtp f) -> attr_wf (AFmtp f) -> fmtp_parameters f <> fmtp_defaults ->
  show_attr (AFmtp f) <> [].
Proof.
  intros f R W D.
  assert (K : show_fmtp_params (fmtp_parameters f) <> []) by (apply params_shown; [apply (proj2 R) | exact W | exact D]).
  cbn [show_attr]. apply attr_to_string_nil. unfold show_fmtp. cbv zeta. destruct (show_fmtp_params _); [congruence|].
  cbn [is_empty]. intro Z. apply app_eq_nil in Z. destruct Z as [_ Z]. discriminate.
Qed.
Lemma attr_shown : forall a, attr_range a -> attr_wf a -> ~ unprinted a -> show_attr a <> [].
Proof.
  intros a R W U.
  destruct a as [| | | | | | |f| | | | | | | | | |i| | | | | | |m| |r| | | | | | | | | | | | | |s| |];
    try (apply (show_attr_nonempty X); [exact R | exact W | exact (fun x : False => x)]).
  - apply fmtp_shown; [exact R | exact W|]. intro D. apply U. exists f. split; [reflexivity | exact D].
  - cbn [show_attr]. apply attr_to_string_nil. unfold show_image_attr. destruct (img_pt i); [|discriminate].
    cbn [show_payload_type]. intro Z. apply app_eq_nil in Z. exact (show_N_nonempty _ (proj1 Z)).
  - cbn [show_attr]. apply attr_to_string_nil. unfold show_msid_semantic. destruct W as [[N _] _].
    destruct (ms_semantic m); [congruence|]. discriminate.
  - cbn [show_attr]. apply attr_to_string_nil. unfold show_rid. destruct (rid_id r); discriminate.
  - cbn [show_attr]. apply attr_to_string_nil. destruct W as [_ N]. unfold show_simulcast. apply join_nonempty.
    unfold non_empty_vec.
    assert (K : forall p l, l <> [] -> p <> [] -> show_vec p [] [c_semi] show_simulcast_version l <> []).
    { intros p [|x l] Hl Hp; [congruence|]. unfold show_vec. intro Z. apply app_eq_nil in Z. tauto. }
    destruct (sim_send s) as [|v l] eqn:Hs.
    + exists (show_vec (lit "recv ") [] [c_semi] show_simulcast_version (sim_receive s)).
      assert (Z : show_vec (lit "recv ") [] [c_semi] show_simulcast_version (sim_receive s) <> []) by (apply K; [exact N | discriminate]).
      split; [|exact Z]. apply filter_In. split; [right; left; reflexivity|]. destruct (show_vec _ _ _ _ (sim_receive s)); [congruence | reflexivity].
    + rewrite <- Hs. exists (show_vec (lit "send ") [] [c_semi] show_simulcast_version (sim_send s)).
      assert (Z : show_vec (lit "send ") [] [c_semi] show_simulcast_version (sim_send s) <> []) by (apply K; [rewrite Hs; discriminate | discriminate]).
      split; [|exact Z]. apply filter_In. split; [left; reflexivity|]. destruct (show_vec _ _ _ _ (sim_send s)); [congruence | reflexivity].
Qed.
Lemma attr_unprinted : forall a, attr_range a -> attr_wf a -> (show_attr a = [] <-> unprinted a).
Proof.
  intros a R W. split.
  - intro K. destruct a; try (destruct (attr_shown _ R W) as []; [intros (? & Z & _); discriminate Z | exact K]).
    rename a into f. destruct (fmtp_params_dec (fmtp_parameters f) fmtp_defaults) as [D|D]; [exists f; split; [reflexivity | exact D]|].
    destruct (fmtp_shown _ R W D K).
  - intros (f & -> & D). cbn [show_attr]. unfold show_fmtp. rewrite D. reflexivity.
Qed.

(** ** Lines *)
Definition name_solid (ty : sdp_type) : Prop :=
  match ty with TySession t => t = [32] \/ starts_solid t /\ ends_solid t | _ => True end.
Lemma line_derived : forall ty, item_wf ty -> name_solid ty ->
  match ty with TyAttribute a => ~ unprinted a | _ => True end -> gen (line_rule ty) (printed_line ty).
Proof.
  intros ty W N U. apply (printed_line_derived X); [exact W | | exact N].
  destruct ty; try exact I. destruct W as [R W]. apply attr_shown; assumption.
Qed.
Lemma crlf_derived : forall a t, gen a t -> ~ In 10 t -> gen (r_line a) (t ++ [13; 10]).
Proof.
  intros a t G H. unfold r_line. cbn [cats]. apply gen_cat; [apply gen_such; assumption|]. change [13; 10] with ([13] ++ [10]).
  apply gen_cat; apply gen_chr; reflexivity.
Qed.
Definition no_lf (l : list str) : Prop := Forall (fun t => ~ In 10 t) l.
Lemma crlf_many : forall {A} a (f : A -> str) l, (forall x, In x l -> gen a (f x)) -> no_lf (map f l) ->
  gen (Many (r_line a)) (crlf_lines (map f l)).
Proof.
  intros A a f l H F. unfold crlf_lines. induction l as [|x l IH]; cbn [map flat_map]; [constructor|].
  apply Forall_cons_iff in F. destruct F as [F1 F2].
  apply gen_many_cons; [apply crlf_derived; [apply H; now left | exact F1] | apply IH; [intros y Hy; apply H; now right | exact F2]].
Qed.
Lemma crlf_opt : forall {A} a (f : A -> str) o, (forall x, o = Some x -> gen a (f x)) -> no_lf (map f (of_option o)) ->
  gen (opt (r_line a)) (crlf_lines (map f (of_option o))).
Proof.
  intros A a f [x|] H F; cbn [of_option map] in *; [|apply g_opt_none; reflexivity].
  apply g_opt_some. unfold crlf_lines. cbn [flat_map]. rewrite app_nil_r. apply crlf_derived; [apply H; reflexivity | exact (Forall_inv F)].
Qed.
Lemma crlf_attributes : forall l, Forall (fun a => attr_range a /\ attr_wf a) l -> some_printed l -> no_lf (attribute_lines l) ->
  gen (Many (r_line r_attribute_line)) (crlf_lines (attribute_lines l)).
Proof.
  intros l F P. unfold attribute_lines. destruct l as [|a l]; [constructor|].
  destruct P as [P|(b & Hb & U)]; [discriminate|].
  set (ts := filter _ _).
  assert (K : ts <> []).
  { intro K. pose proof (proj1 (Forall_forall _ _) F b Hb) as [R W]. pose proof (attr_shown b R W U) as S.
    assert (I : In (show_attr b) ts).
    { apply filter_In. split; [apply in_map, Hb|]. destruct (show_attr b); [congruence | reflexivity]. }
    rewrite K in I. exact I. }
  assert (Q : no_lf (map (app (lit "a=")) ts) -> gen (Many (r_line r_attribute_line)) (crlf_lines (map (app (lit "a=")) ts))).
  { apply crlf_many. intros t Ht. apply filter_In in Ht. destruct Ht as [Ht N]. apply in_map_iff in Ht.
    destruct Ht as (x & <- & Hx). pose proof (proj1 (Forall_forall _ _) F x Hx) as [R W].
    apply gen_cat; [glit|]. apply (g_attr X); [exact R | exact W|]. destruct (show_attr x); [discriminate | discriminate]. }
  destruct ts; [congruence | exact Q].
Qed.
Lemma crlf_lines_app : forall x y, crlf_lines (x ++ y) = crlf_lines x ++ crlf_lines y.
Proof. intros. apply flat_map_app. Qed.
Lemma crlf_lines_cons : forall x y, crlf_lines (x :: y) = (x ++ [13; 10]) ++ crlf_lines y.
Proof. reflexivity. Qed.
Lemma no_lf_app : forall x y, no_lf (x ++ y) -> no_lf x /\ no_lf y.
Proof. intros x y H. exact (proj1 (Forall_app _ _ _) H). Qed.
Lemma no_lf_cons : forall x y, no_lf (x :: y) -> ~ In 10 x /\ no_lf y.
Proof. intros x y H. exact (conj (Forall_inv H) (Forall_inv_tail H)). Qed.
Lemma media_derived : forall m, Forall item_wf (media_items m) -> some_printed (m_attribute m) -> no_lf (media_lines m) ->
  gen (r_section [r_line r_media_line]) (crlf_lines (media_lines m)).
Proof.
  intros m F P. unfold r_section, media_lines. cbn [app cats]. intro L.
  rewrite crlf_lines_cons, !crlf_lines_app. pose proof (proj1 (Forall_forall _ _) F) as G.
  apply no_lf_cons in L. destruct L as [L1 L]. apply no_lf_app in L. destruct L as [L2 L]. apply no_lf_app in L. destruct L as [L3 L4].
  unfold media_items in G. apply gen_cat; [|apply gen_cat; [|apply gen_cat]].
  - apply crlf_derived; [|exact L1]. apply (line_derived (TyMedia (m_media m))); [|exact I | exact I]. apply G. left. reflexivity.
  - apply crlf_many; [|exact L2]. intros x Hx. apply (line_derived (TyBandwidth x)); [|exact I | exact I]. apply G.
    right. repeat rewrite in_app_iff. right. left. apply in_map, Hx.
  - apply crlf_opt; [|exact L3]. intros x Hx. apply (line_derived (TyConnection x)); [|exact I | exact I]. apply G.
    right. repeat rewrite in_app_iff. left. rewrite Hx. left. reflexivity.
  - apply crlf_attributes; [|exact P | exact L4]. apply Forall_forall. intros a Ha.
    apply (G (TyAttribute a)). right. repeat rewrite in_app_iff. right. right. apply in_map, Ha.
Qed.
Lemma session_derived : forall s, session_wf s -> all_printed s -> gen document_text (show_session s).
Proof.
  intros s (F & C & N & _ & _) [P Q]. destruct (session_lines_ok X s C) as (-> & _ & L).
  pose proof (proj1 (Forall_forall _ _) F) as G. unfold session_items in G.
  unfold document_text, session_lines, r_section in *. cbn [app cats].
  apply no_lf_cons in L. destruct L as [L1 L]. apply no_lf_cons in L. destruct L as [L2 L]. apply no_lf_cons in L. destruct L as [L3 L].
  apply no_lf_app in L. destruct L as [L4 L]. apply no_lf_app in L. destruct L as [L5 L].
  apply no_lf_app in L. destruct L as [L6 L]. apply no_lf_app in L. destruct L as [L7 L8].
  rewrite !crlf_lines_cons, !crlf_lines_app, !app_assoc. apply gen_cat.
  - rewrite <- !app_assoc. rewrite app_assoc. apply gen_cat; [|rewrite app_assoc; apply gen_cat; [|rewrite app_assoc; apply gen_cat; [|
      apply gen_cat; [|apply gen_cat; [|apply gen_cat]]]]].
    + apply crlf_derived; [|exact L1]. apply (line_derived (TyVersion (s_version s))); [|exact I | exact I]. apply G. left. reflexivity.
    + apply crlf_derived; [|exact L2]. apply (line_derived (TyOrigin (s_origin s))); [|exact I | exact I]. apply G. right. left. reflexivity.
    + apply crlf_derived; [|exact L3]. destruct (s_session s) as [t|]; apply g_after; try reflexivity; [|apply gen_or_left; glit].
      apply gen_or_right, g_text; apply N.
    + apply crlf_opt; [|exact L4]. intros x Hx. apply (line_derived (TyTiming x)); [|exact I | exact I]. apply G.
      do 2 right. repeat rewrite in_app_iff. rewrite Hx. cbn. tauto.
    + apply crlf_many; [|exact L5]. intros x Hx. apply (line_derived (TyBandwidth x)); [|exact I | exact I]. apply G.
      do 2 right. repeat rewrite in_app_iff. pose proof (in_map TyBandwidth _ _ Hx). tauto.
    + apply crlf_opt; [|exact L6]. intros x Hx. apply (line_derived (TyConnection x)); [|exact I | exact I]. apply G.
      do 2 right. repeat rewrite in_app_iff. rewrite Hx. cbn. tauto.
    + apply crlf_attributes; [|exact P | exact L7]. apply Forall_forall. intros a Ha.
      apply (G (TyAttribute a)). do 2 right. repeat rewrite in_app_iff. pose proof (in_map TyAttribute _ _ Ha). tauto.
  - assert (K : forall m, In m (s_media s) -> no_lf (media_lines m) -> gen (r_section [r_line r_media_line]) (crlf_lines (media_lines m))).
    { intros m Hm. apply media_derived; [|exact (proj1 (Forall_forall _ _) Q m Hm)]. apply Forall_forall. intros ty Hty.
      apply G. do 2 right. repeat rewrite in_app_iff. do 4 right. apply in_flat_map. exists m. split; assumption. }
    revert K L8. generalize (s_media s). intros l K L8. induction l as [|m l IH]; [constructor|]. cbn [flat_map] in *.
    apply no_lf_app in L8. destruct L8 as [L8 L9].
    rewrite crlf_lines_app. apply gen_many_cons; [apply K; [now left | exact L8] | apply IH; [intros; apply K; [now right | assumption] | exact L9]].
Qed.
(** ** ... and only those *)
Definition line_rules : list abnf := [r_version_line; r_origin_line; r_name_line; r_time_line;
  r_bandwidth_line; r_connection_line; r_attribute_line; r_media_line].
Definition in_lines (a : abnf) : Prop := forall t, gen a t -> exists l, t = crlf_lines l /\
  Forall (fun x => ~ In 10 x /\ exists r, In r line_rules /\ gen r x) l.
Lemma in_lines_line : forall r, In r line_rules -> in_lines (r_line r).
Proof.
  intros r I t G. unfold r_line in G. cbn [cats] in G. inversion G as [| |a b x y G1 G2| | | | |]; subst.
  inversion G2 as [| |a b u v G3 G4| | | | |]; subst. inversion G3 as [|P c Hc| | | | | |]; subst. inversion G4 as [|P c Hc| | | | | |]; subst.
  inversion G1 as [| | | | | | |a P t G5 H]; subst.
  exists [x]. split; [unfold crlf_lines; cbn [flat_map]; rewrite app_nil_r; reflexivity|]. constructor; [|constructor].
  split; [exact H|]. exists r. split; assumption.
Qed.
Lemma in_lines_cat : forall a b, in_lines a -> in_lines b -> in_lines (Cat a b).
Proof.
  intros a b A B t G. inversion G as [| |a' b' x y G1 G2| | | | |]; subst.
  destruct (A _ G1) as (l1 & -> & F1). destruct (B _ G2) as (l2 & -> & F2). exists (l1 ++ l2).
  split; [symmetry; apply crlf_lines_app | apply Forall_app; split; assumption].
Qed.
Lemma in_lines_opt : forall a, in_lines a -> in_lines (opt a).
Proof.
  intros a A t G. inversion G as [| | |a' b' x G1|a' b' x G1| | |]; subst; [|exact (A _ G1)].
  inversion G1. subst. exists []. split; [reflexivity | constructor].
Qed.
Lemma in_lines_many : forall a, in_lines a -> in_lines (Many a).
Proof.
  intros a A t G. remember (Many a) as b eqn:Hb. induction G as [| | | | |a'|a' x y G1 _ G2 IH2|]; try discriminate Hb; injection Hb as ->.
  - exists []. split; [reflexivity | constructor].
  - destruct (A _ G1) as (l1 & -> & F1). destruct (IH2 eq_refl) as (l2 & -> & F2). exists (l1 ++ l2).
    split; [symmetry; apply crlf_lines_app | apply Forall_app; split; assumption].
Qed.
Lemma document_in_lines : in_lines document_text.
Proof.
  unfold document_text, r_section. cbn [app cats].
  assert (K : forall r, In r line_rules -> in_lines (r_line r)) by exact in_lines_line. unfold line_rules in K. cbn [In] in K.
  repeat first [apply K; tauto | apply in_lines_cat | apply in_lines_opt | apply in_lines_many].
Qed.
Lemma first_two : forall s a b c t, of_string s = [a; b] -> gen (Cat (Lit s) c) t -> exists r, t = a :: b :: r.
Proof. intros s a b c t H G. apply gen_lit_cat in G. destruct G as (r & -> & _). rewrite H. exists r. reflexivity. Qed.
Lemma no_rule : forall r, In r line_rules -> ~ gen r (lit "a=").
Proof.
  intros r I G. cbn [line_rules In] in I.
  destruct I as [<-|[<-|[<-|[<-|[<-|[<-|[<-|[<-|[]]]]]]]]]; try exact (no_empty_attribute G).
  - inversion G.
  - apply gen_lit_cat in G. destruct G as (r & K & _). discriminate.
  - apply gen_lit_cat in G. destruct G as (r & K & _). discriminate.
  - apply gen_lit_cat in G. destruct G as (r & K & _). discriminate.
  - apply gen_lit_cat in G. destruct G as (r & K & _). discriminate.
  - apply gen_lit_cat in G. destruct G as (r & K & _). discriminate.
  - unfold r_media_line in G. inversion G as [| | |a b t G1|a b t G1| | |]; subst; apply gen_lit_cat in G1; destruct G1 as (r & K & _); discriminate.
Qed.
Lemma unprinted_dec : forall a, {unprinted a} + {~ unprinted a}.
Proof.
  intro a. destruct a; try (right; intros (f & Z & _); discriminate Z).
  rename a into f. destruct (fmtp_params_dec (fmtp_parameters f) fmtp_defaults) as [D|D].
  - left. exists f. split; [reflexivity | exact D].
  - right. intros (g & Z & D'). injection Z as <-. exact (D D').
Qed.
Lemma some_printed_dec : forall l, {some_printed l} + {l <> [] /\ Forall unprinted l}.
Proof.
  intro l. destruct l as [|a l]; [left; left; reflexivity|].
  destruct (Forall_dec unprinted unprinted_dec (a :: l)) as [F|F]; [right; split; [discriminate | exact F]|].
  left. right. apply Exists_exists. apply neg_Forall_Exists_neg; [exact unprinted_dec | exact F].
Qed.
Lemma unprinted_lines : forall l, l <> [] -> Forall unprinted l -> attribute_lines l = [lit "a="].
Proof.
  intros l N F. unfold attribute_lines. destruct l as [|a l]; [congruence|].
  assert (K : forall l, Forall unprinted l -> filter (fun t : str => match t with [] => false | _ => true end) (map show_attr l) = []).
  { intros l' F'. induction F' as [|x l' (f & -> & D) F' IH]; [reflexivity|]. cbn [map filter]. rewrite IH.
    cbn [show_attr]. unfold show_fmtp. rewrite D. reflexivity. }
  rewrite K by exact F. reflexivity.
Qed.
Lemma crlf_lines_back : forall l, Forall (fun x => ~ In 10 x) l -> lines (crlf_lines l) = l.
Proof.
  intros l F. replace (crlf_lines l) with (flat_map (fun x => x ++ crlf) l ++ []) by apply app_nil_r.
  rewrite lines_flat; [apply app_nil_r|]. eapply Forall_impl; [|exact F]. intros x Hx. apply contains_not_In, Hx.
Qed.
Lemma session_derived_iff : forall s, session_wf s -> (gen document_text (show_session s) <-> all_printed s).
Proof.
  intros s W. split; [|apply session_derived, W]. intro G. destruct W as (_ & C & _).
  destruct (session_lines_ok X s C) as (K & L & _). apply document_in_lines in G. destruct G as (l & Q & F).
  assert (Z : l = session_lines s).
  { rewrite <- L, Q. symmetry. apply crlf_lines_back. eapply Forall_impl; [|exact F]. intros x [H _]. exact H. }
  subst l.
  assert (No : ~ In (lit "a=") (session_lines s)).
  { intro I. destruct (proj1 (Forall_forall _ _) F _ I) as (_ & r & Hr & G). exact (no_rule r Hr G). }
  unfold session_lines in No. split.
  - destruct (some_printed_dec (s_attribute s)) as [P|[N U]]; [exact P|]. destruct No. do 3 right.
    rewrite (unprinted_lines _ N U). repeat rewrite in_app_iff. do 3 right. left. left. reflexivity.
  - apply Forall_forall. intros m Hm. destruct (some_printed_dec (m_attribute m)) as [P|[N U]]; [exact P|]. destruct No. do 3 right.
    repeat rewrite in_app_iff. do 4 right. apply in_flat_map. exists m. split; [exact Hm|]. right.
    rewrite (unprinted_lines _ N U). repeat rewrite in_app_iff. do 2 right. left. reflexivity.
Qed.
Lemma accepted_derived : forall sdp b s, parse_sdp sdp b = Ok s -> (gen document_text (show_session s) <-> all_printed s).
Proof. intros sdp b s H. apply session_derived_iff. exact (proj1 (parsed_session_wf X _ _ _ H)). Qed.
Lemma text_inv : forall t, gen r_text t -> starts_solid t /\ ends_solid t.
Proof.
  intros t G. unfold r_text in G. inversion G as [| | |a b x G1|a b x G1| | |]; subst; clear G.
  - inversion G1 as [|P c Hc| | | | | |]; subst. split; [exists c, [] | exists c, []]; split; try reflexivity; exact Hc.
  - cbn [cats] in G1. inversion G1 as [| |a b x y G2 G3| | | | |]; subst. inversion G2 as [|P c Hc| | | | | |]; subst.
    inversion G3 as [| |a b u v G4 G5| | | | |]; subst. inversion G5 as [|P d Hd| | | | | |]; subst.
    split; [exists c, (u ++ [d]) | exists d, ([c] ++ u)].
    + split; [reflexivity | exact Hc].
    + split; [rewrite app_assoc; reflexivity | exact Hd].
Qed.
Lemma line_derived_iff : forall ty, item_wf ty -> (gen (line_rule ty) (printed_line ty) <-> item_printable ty).
Proof.
  intros ty W. split.
  - intro G. destruct ty as [a|b|c|m|o|t|t|n]; try exact I; cbn [item_printable].
    + intros (f & -> & D). unfold printed_line in G. cbn [item_text show_attr] in G. unfold show_fmtp in G. rewrite D in G.
      exact (no_empty_attribute G).
    + cbn [line_rule] in G. apply gen_lit_cat in G. destruct G as (r & K & G). cbn in K. injection K as <-.
      inversion G as [| | |a b x G1|a b x G1| | |]; subst; clear G; [left; inversion G1; reflexivity | right].
      destruct (text_inv _ G1) as [S1 S2]. split; assumption.
  - intro P. destruct ty; apply line_derived; try exact W; try exact I; exact P.
Qed.
Lemma accepted_line_derived : forall line n l, parse_sdp_line line n = Ok l ->
  (gen (line_rule (l_type l)) (printed_line (l_type l)) <-> item_printable (l_type l)).
Proof. intros line n l H. apply line_derived_iff. exact (line_means_wf X _ _ _ H). Qed.

(** ** The order of the lines *)
Definition block {A} (c : N) (l : list A) : str := map (fun _ => c) l.
Definition media_order (m : media) : str :=
  109 :: block 98 (m_bandwidth m) ++ block 99 (of_option (m_connection m)) ++ block 97 (attribute_lines (m_attribute m)).
Definition head_order (s : session) : str :=
  118 :: 111 :: 115 :: block 116 (of_option (s_timing s)) ++ block 98 (s_bandwidth s) ++
  block 99 (of_option (s_connection s)) ++ block 97 (attribute_lines (s_attribute s)).
Lemma attribute_letters : forall l, map (hd 0) (attribute_lines l) = block 97 (attribute_lines l).
Proof.
  intro l. unfold attribute_lines. destruct l as [|a l]; [reflexivity|]. destruct (filter _ _) as [|t ts]; [reflexivity|].
  unfold block. rewrite !map_map. apply map_ext. intro x. reflexivity.
Qed.
Lemma letters_are : forall s, session_clean s ->
  letters (show_session s) = head_order s ++ List.concat (map media_order (s_media s)).
Proof.
  intros s C. unfold letters. rewrite (proj1 (proj2 (session_lines_ok X s C))). unfold session_lines, head_order.
  cbn [map hd]. rewrite !map_app, !map_map, attribute_letters. cbn [app]. rewrite <- !app_assoc. repeat f_equal.
  generalize (s_media s). intro l. induction l as [|m l IH]; [reflexivity|]. cbn [flat_map map List.concat]. rewrite map_app, IH. f_equal.
  unfold media_lines, media_order. cbn [map hd]. rewrite !map_app, !map_map, attribute_letters. reflexivity.
Qed.
Lemma in_block : forall {A} c (l : list A) x, In x (block c l) -> x = c.
Proof. intros A c l x H. apply in_map_iff in H. destruct H as (_ & <- & _). reflexivity. Qed.
Lemma order_block : forall {A} l ls t (x : list A), in_order ls t -> in_order (l :: ls) (block l x ++ t).
Proof.
  intros A l ls t x H. induction x as [|y x IH]; cbn [block map app]; [apply order_next, H | apply order_same, IH].
Qed.
Lemma order_after : forall t ls x a y, in_order ls t -> t = x ++ a :: y ->
  exists p q, ls = p ++ a :: q /\ in_order (a :: q) y.
Proof.
  intros t ls x a y H. revert x. induction H as [ls|l ls t H IH|l ls t H IH]; intros x K.
  - destruct x; discriminate.
  - destruct x as [|b x]; injection K as <- ->.
    + exists [], ls. split; [reflexivity | exact H].
    + exact (IH x eq_refl).
  - destruct (IH x K) as (p & q & -> & O). exists (l :: p), q. split; [reflexivity | exact O].
Qed.
Lemma order_in : forall ls t, in_order ls t -> forall c, In c t -> In c ls.
Proof.
  intros ls t H. induction H as [ls|l ls t H IH|l ls t H IH]; intros c I; [destruct I | |right; apply IH, I].
  destruct I as [<-|I]; [left; reflexivity | apply IH, I].
Qed.
Lemma split_unique : forall (c : N) x x' ms ms', ~ In c x -> ~ In c x' ->
  (forall m, In m ms -> exists r, m = c :: r /\ ~ In c r) -> (forall m, In m ms' -> exists r, m = c :: r /\ ~ In c r) ->
  x ++ List.concat ms = x' ++ List.concat ms' -> x = x' /\ ms = ms'.
Proof.
  assert (Head : forall (c : N) x x' ms ms', ~ In c x -> ~ In c x' ->
    (forall m, In m ms -> exists r, m = c :: r /\ ~ In c r) -> (forall m, In m ms' -> exists r, m = c :: r /\ ~ In c r) ->
    x ++ List.concat ms = x' ++ List.concat ms' -> x = x' /\ List.concat ms = List.concat ms').
  { intros c x. induction x as [|a x IH]; intros x' ms ms' N N' M M' K.
    - destruct x' as [|a' x']; [split; [reflexivity | exact K]|]. cbn [app] in K. destruct ms as [|m ms]; [discriminate|].
      destruct (M m (or_introl eq_refl)) as (r & -> & _). cbn in K. injection K as K _. destruct N'. left. symmetry. exact K.
    - destruct x' as [|a' x'].
      + cbn [app] in K. destruct ms' as [|m ms']; [discriminate|].
        destruct (M' m (or_introl eq_refl)) as (r & -> & _). cbn in K. injection K as K _. destruct N. left. exact K.
      + injection K as <- K. destruct (IH x' ms ms') as [-> Q]; try assumption; [intro I; apply N; now right | intro I; apply N'; now right|].
        split; [reflexivity | exact Q]. }
  intros c x x' ms ms' N N' M M' K. destruct (Head c x x' ms ms' N N' M M' K) as [-> Q]. split; [reflexivity|].
  clear K N N' x'. revert ms' M' Q. induction ms as [|m ms IH]; intros ms' M' Q.
  - destruct ms' as [|m' ms']; [reflexivity|]. destruct (M' m' (or_introl eq_refl)) as (r & -> & _). discriminate.
  - destruct ms' as [|m' ms']; [destruct (M m (or_introl eq_refl)) as (r & -> & _); discriminate|].
    destruct (M m (or_introl eq_refl)) as (r & -> & R). destruct (M' m' (or_introl eq_refl)) as (r' & -> & R').
    cbn [List.concat app] in Q. injection Q as Q.
    destruct (Head c r r' ms ms' R R') as [-> Q']; [intros; apply M; now right | intros; apply M'; now right | exact Q|].
    f_equal. apply IH; [intros; apply M; now right | intros; apply M'; now right | exact Q'].
Qed.
Lemma body_letters : forall m, ~ In 109 (block 98 (m_bandwidth m) ++ block 99 (of_option (m_connection m)) ++ block 97 (attribute_lines (m_attribute m))).
Proof.
  intros m I. repeat rewrite in_app_iff in I. destruct I as [I|[I|I]]; apply in_block in I; discriminate.
Qed.
Lemma head_letters : forall s, ~ In 109 (head_order s).
Proof.
  intros s I. unfold head_order in I. destruct I as [I|[I|[I|I]]]; try discriminate.
  repeat rewrite in_app_iff in I. destruct I as [I|[I|[I|I]]]; apply in_block in I; discriminate.
Qed.
(** Nothing of [bad] comes after [c]. *)
Lemma not_after : forall ls p c q, ls = p ++ c :: q -> ~ In c p -> ~ In c q -> forall t x y d, in_order ls t -> t = x ++ c :: y -> In d y -> In d (c :: q).
Proof.
  intros ls p c q -> N1 N2 t x y d O K I. destruct (order_after _ _ _ _ _ O K) as (p' & q' & Q & O').
  assert (q = q').
  { revert p' Q. clear O K. induction p as [|a p IH]; intros p' Q.
    - destruct p' as [|a' p']; [injection Q as ->; reflexivity|]. injection Q as <- ->. destruct N2. apply in_or_app. right. now left.
    - destruct p' as [|a' p']; [injection Q as -> _; destruct N1; now left|]. injection Q as _ Q. apply (IH (fun I => N1 (or_intror I)) p' Q). }
  subst q'. exact (order_in _ _ O' d I).
Qed.
Lemma block_split : forall {A} c (l : list A), l <> [] -> exists r, block c l = c :: r.
Proof. intros A c [|a l] H; [congruence|]. exists (block c l). reflexivity. Qed.
Lemma of_option_ne : forall {A} (o : option A), o <> None -> of_option o <> [].
Proof. intros A [a|] H; [discriminate | congruence]. Qed.
Ltac not_in := vm_compute; let I := fresh in intro I; repeat destruct I as [I|I]; try discriminate; exact I.
Lemma order_iff : forall s, session_clean s -> (rfc_order (letters (show_session s)) <-> ~ out_of_order s).
Proof.
  intros s C. rewrite (letters_are s C). split.
  - intros O B. remember (head_order s ++ _) as t eqn:K in O. destruct O as [t ms O F].
    assert (M : forall m, In m ms -> exists r, m = 109 :: r /\ ~ In 109 r).
    { intros m Hm. destruct (proj1 (Forall_forall _ _) F m Hm) as (r & -> & H & _). exists r. split; [reflexivity | exact H]. }
    destruct (split_unique 109 t (head_order s) ms (map media_order (s_media s))) as [-> ->]; try assumption.
    + intro I. apply (order_in _ _ O) in I. revert I. not_in.
    + apply head_letters.
    + intros m Hm. apply in_map_iff in Hm. destruct Hm as (x & <- & _). eexists. split; [reflexivity | apply body_letters].
    + unfold head_order in O. destruct B as [[B1 B2]|[[B1 B2]|[[B1 B2]|B]]].
      * destruct (block_split 116 _ (of_option_ne _ B1)) as (r & Q). destruct (block_split 98 _ B2) as (r' & Q'). rewrite Q, Q' in O.
        assert (Z : In 98 (116 :: lit "rzka")).
        { eapply (not_after session_letters (lit "vosiuepcb") 116 (lit "rzka") eq_refl); [not_in | not_in | exact O| |].
          - exact (eq_refl ([118; 111; 115] ++ 116 :: _)).
          - repeat first [apply in_eq | apply in_or_app; right]. }
        revert Z. not_in.
      * destruct (block_split 116 _ (of_option_ne _ B1)) as (r & Q). destruct (block_split 99 _ (of_option_ne _ B2)) as (r' & Q'). rewrite Q, Q' in O.
        assert (Z : In 99 (116 :: lit "rzka")).
        { eapply (not_after session_letters (lit "vosiuepcb") 116 (lit "rzka") eq_refl); [not_in | not_in | exact O| |].
          - exact (eq_refl ([118; 111; 115] ++ 116 :: _)).
          - repeat first [apply in_eq | apply in_or_app; right]. }
        revert Z. not_in.
      * destruct (block_split 98 _ B1) as (r & Q). destruct (block_split 99 _ (of_option_ne _ B2)) as (r' & Q'). rewrite Q, Q' in O.
        assert (Z : In 99 (98 :: lit "trzka")).
        { eapply (not_after session_letters (lit "vosiuepc") 98 (lit "trzka") eq_refl); [not_in | not_in | exact O| |].
          - cbn [app]. exact (app_assoc [118; 111; 115] (block 116 (of_option (s_timing s))) _).
          - repeat first [apply in_eq | apply in_or_app; right]. }
        revert Z. not_in.
      * apply Exists_exists in B. destruct B as (m & Hm & B1 & B2).
        destruct (proj1 (Forall_forall _ _) F _ (in_map media_order _ _ Hm)) as (r0 & _ & _ & O2). unfold media_order in O2.
        destruct (block_split 99 _ (of_option_ne _ B2)) as (r & Q). destruct (block_split 98 _ B1) as (r' & Q').
        rewrite Q, Q' in O2.
        assert (Z : In 99 (98 :: lit "ka")).
        { eapply (not_after media_letters (lit "mic") 98 (lit "ka") eq_refl); [not_in | not_in | exact O2| |].
          - exact (eq_refl ([109] ++ 98 :: _)).
          - repeat first [apply in_eq | apply in_or_app; right]. }
        revert Z. not_in.
  - intro B. constructor.
    + unfold head_order, session_letters.
      change (in_order (lit "vosiuepcbtrzka") (block 118 [tt] ++ block 111 [tt] ++ block 115 [tt] ++
        block 116 (of_option (s_timing s)) ++ block 98 (s_bandwidth s) ++ block 99 (of_option (s_connection s)) ++
        block 97 (attribute_lines (s_attribute s)))).
      do 3 apply order_block. do 4 apply order_next.
      assert (Last : in_order [97] (block 97 (attribute_lines (s_attribute s)))).
      { rewrite <- (app_nil_r (block 97 _)). apply order_block, order_nil. }
      destruct (s_timing s) as [t|] eqn:Q1.
      * destruct (s_bandwidth s) as [|b l] eqn:Q2; [|destruct B; left; rewrite Q1, Q2; split; discriminate].
        destruct (s_connection s) as [c|] eqn:Q3; [destruct B; right; left; rewrite Q1, Q3; split; discriminate|].
        do 2 apply order_next. apply (order_block 116 _ _ [tt]). do 3 apply order_next. exact Last.
      * destruct (s_bandwidth s) as [|b l] eqn:Q2.
        -- apply (order_block 99 _ _ (of_option (s_connection s))). do 5 apply order_next. exact Last.
        -- destruct (s_connection s) as [c|] eqn:Q3; [destruct B; do 2 right; left; rewrite Q2, Q3; split; discriminate|].
           apply order_next. apply (order_block 98 _ _ (b :: l)). do 4 apply order_next. exact Last.
    + apply Forall_forall. intros x Hx. apply in_map_iff in Hx. destruct Hx as (m & <- & Hm).
      eexists. split; [reflexivity|]. split; [apply body_letters|].
      assert (Last : in_order [97] (block 97 (attribute_lines (m_attribute m)))).
      { rewrite <- (app_nil_r (block 97 _)). apply order_block, order_nil. }
      unfold media_order, media_letters. apply (order_block 109 _ _ [tt]). apply order_next.
      destruct (m_bandwidth m) as [|b l] eqn:Q2.
      * apply (order_block 99 _ _ (of_option (m_connection m))). do 2 apply order_next. exact Last.
      * destruct (m_connection m) as [c|] eqn:Q3.
        -- destruct B. do 3 right. apply Exists_exists. exists m. rewrite Q2, Q3. split; [exact Hm | split; discriminate].
        -- apply order_next. apply (order_block 98 _ _ (b :: l)). apply order_next. exact Last.
Qed.
(** Accepted sessions have a timing. *)
Lemma accepted_order : forall sdp b s, parse_sdp sdp b = Ok s ->
  (rfc_order (letters (show_session s)) <-> ~ out_of_order s).
Proof. intros sdp b s H. apply order_iff. exact (parsed_clean X _ _ _ H). Qed.
Lemma accepted_bad_order : forall sdp b s, parse_sdp sdp b = Ok s ->
  s_connection s <> None \/ s_bandwidth s <> [] -> ~ rfc_order (letters (show_session s)).
Proof.
  intros sdp b s H K O. apply (accepted_order _ _ _ H) in O. apply O.
  assert (T : s_timing s <> None).
  { destruct (rule_timing _ (proj2 (parsed_session_wf X _ _ _ H))) as (t & ->). discriminate. }
  destruct K as [K|K]; [right; left | left]; split; assumption.
Qed.
End WithExt.

(** * Proofs: the lines of a printed session (C41) *)
From Coq Require Import List NArith ZArith Lia Bool Ascii String.
From Verif Require Import Str Num Net Types Ext Show SpecApi SpecDoc SpecVal SpecItems SpecPrint.
From Verif Require Import StrLemmas NumLemmas NetLemmas.
Import ListNotations.
Open Scope N_scope.
Open Scope list_scope.

(** ** Texts without line feeds *)
Definition nl (s : str) : Prop := ~ In 10 s.
Lemma nl_nil : nl []. Proof. intros []. Qed.
Lemma nl_app : forall a b, nl a -> nl b -> nl (a ++ b).
Proof. intros a b Ha Hb H. apply in_app_or in H. destruct H; auto. Qed.
Lemma nl_cons : forall c b, c <> 10 -> nl b -> nl (c :: b).
Proof. intros c b Ha Hb [H|H]; auto. Qed.
Lemma nl_class : forall p s, forallb p s = true -> p 10 = false -> nl s.
Proof. intros p s H P K. rewrite forallb_forall in H. apply H in K. congruence. Qed.
Lemma nl_N : forall n, nl (show_N n).
Proof. intro n. apply (nl_class dec_char); [apply show_N_chars | reflexivity]. Qed.
Lemma nl_ip : forall i, nl (show_ip i).
Proof. intro i. apply (nl_class ip_char); [apply show_ip_chars | reflexivity]. Qed.
Lemma nl_join : forall sep l, nl sep -> Forall nl l -> nl (join sep l).
Proof.
  intros sep l Hs H. induction H as [|x l Hx H IH]; [apply nl_nil|].
  destruct l as [|y l]; [exact Hx|]. rewrite join_cons by discriminate.
  apply nl_app; [exact Hx|]. apply nl_app; assumption.
Qed.
Lemma nl_filter : forall f l, Forall nl l -> Forall nl (filter f l).
Proof.
  intros f l H. apply Forall_forall. intros x Hx. apply filter_In in Hx.
  exact (proj1 (Forall_forall _ _) H x (proj1 Hx)).
Qed.
Lemma nl_map : forall {A} (f : A -> str) l, (forall x, In x l -> nl (f x)) -> Forall nl (map f l).
Proof.
  intros A f l H. apply Forall_forall. intros y Hy. apply in_map_iff in Hy.
  destruct Hy as (x & <- & Hx). auto.
Qed.
Lemma nl_flat : forall {A} (f : A -> str) l, (forall x, In x l -> nl (f x)) -> nl (flat_map f l).
Proof. intros A f l H K. apply in_flat_map in K. destruct K as (x & Hx & Hc). exact (H x Hx Hc). Qed.
Lemma nl_opt : forall {A} pre (show : A -> str) suf o, nl pre -> nl suf ->
  (forall x, o = Some x -> nl (show x)) -> nl (show_opt pre show suf o).
Proof.
  intros A pre show suf [x|] Hp Hs H; [|apply nl_nil]. cbn [show_opt].
  apply nl_app; [exact Hp|]. apply nl_app; [apply H; reflexivity | exact Hs].
Qed.
Lemma nl_vec : forall {A} pre suf sep (show : A -> str) l, nl pre -> nl suf -> nl sep ->
  (forall x, In x l -> nl (show x)) -> nl (show_vec pre suf sep show l).
Proof.
  intros A pre suf sep show l Hp Hs He H. destruct l as [|x l]; [apply nl_nil|].
  cbn [show_vec]. apply nl_app; [exact Hp|]. apply nl_app; [|exact Hs].
  apply nl_join; [exact He|]. apply nl_filter, nl_map, H.
Qed.
Lemma nl_discrete : forall {A} (show : A -> str) l, (forall x, nl (show x)) -> nl (show_discrete show l).
Proof.
  intros A show l H. destruct l as [|x [|y l]]; cbn [show_discrete].
  - intros [K|[K|[]]]; discriminate.
  - apply H.
  - apply nl_app; [intros [K|[]]; discriminate|]. apply nl_app; [|intros [K|[]]; discriminate].
    apply nl_join; [intros [K|[]]; discriminate|]. apply nl_map. auto.
Qed.
Lemma nl_param : forall name v d, nl name -> nl (maybe_param name v d).
Proof. intros name v d H. unfold maybe_param. destruct (v =? d); [apply nl_nil|]. apply nl_app; [exact H | apply nl_N]. Qed.
Lemma nl_param_str : forall name v d, nl name -> nl v -> nl (maybe_param_str name v d).
Proof. intros name v d H K. unfold maybe_param_str. destruct (str_eqb v d); [apply nl_nil | apply nl_app; assumption]. Qed.
Lemma nl_bool : forall name v d, nl name -> nl (maybe_bool_param name v d).
Proof.
  intros name v d H. unfold maybe_bool_param. destruct (Bool.eqb v d); [apply nl_nil|].
  apply nl_app; [exact H|]. destruct v; intros [K|[K|[]]]; discriminate.
Qed.
Lemma nl_hex : forall p s, forallb hex_char s = true -> nl (pad0 p s).
Proof. intros p s H. apply (nl_class hex_char); [apply pad0_chars; [reflexivity | exact H] | reflexivity]. Qed.

Ltac nl_lit :=
  let K := fresh in intros K; cbn in K; repeat (destruct K as [K|K]; [discriminate K|]); exact K.
Ltac nls :=
  repeat first
    [ assumption | apply nl_nil | apply nl_N | apply nl_ip
    | match goal with |- nl (_ :: _) => solve [nl_lit] | |- nl sp => solve [nl_lit] end
    | match goal with |- nl (pad0 _ _) =>
        apply nl_hex; first [apply show_hex_chars | apply show_HEX_chars] end
    | match goal with |- nl (_ ++ _) => apply nl_app end
    | apply nl_param | apply nl_param_str | apply nl_bool
    | apply nl_opt; [| |intros ? ?]
    | apply nl_vec; [| | |intros ? ?]
    | match goal with |- nl (match ?x with _ => _ end) => destruct x eqn:? end
    | match goal with |- nl (if ?x then _ else _) => destruct x eqn:? end ].

Section WithExt.
Context {E : Ext}.
Context (X : ext_ok E).

Lemma nl_f32 : forall x, nl (show_f32 x).
Proof. intro x. apply (nl_class float_char); [apply (f32_show_chars E X) | reflexivity]. Qed.
Lemma nl_f64 : forall x, nl (show_f64 x).
Proof. intro x. apply (nl_class float_char); [apply (f64_show_chars E X) | reflexivity]. Qed.

Lemma nl_address : forall a, Forall nl (address_texts a) -> nl (show_address a).
Proof. intros [d|i] H; [inversion H; assumption | apply nl_ip]. Qed.
Lemma nl_typed : forall a, Forall nl (typed_texts a) -> nl (show_typed_address a).
Proof.
  intros a H. unfold show_typed_address. apply nl_app; [nl_lit|].
  apply nl_app; [destruct (typed_addr_type a); nl_lit|]. apply nl_app; [nl_lit|].
  destruct a as [t d|i]; [inversion H; assumption | apply nl_ip].
Qed.
Lemma nl_ssrc : forall s, Forall nl (ssrc_texts s) -> nl (show_ssrc s).
Proof.
  intros s H. unfold show_ssrc. unfold ssrc_texts in H. apply Forall_app in H. destruct H as [H1 H2].
  destruct (ssrc_attribute s); destruct (ssrc_value s); cbn [show_opt of_option] in *;
    inversion H1; inversion H2; subst; nls.
Qed.
Lemma nl_image_set : forall s, nl (show_image_set s).
Proof.
  intro s. unfold show_image_set.
  assert (XY : forall r, nl (show_xy_range r)).
  { intros [a b st|l]; cbn [show_xy_range]; [nls | apply nl_discrete; apply nl_N]. }
  repeat apply nl_app; try nl_lit; try apply XY; apply nl_opt; try nl_lit; intros r _.
  - destruct r as [a b|l]; cbn [show_s_range]; [|apply nl_discrete; apply nl_f32].
    repeat apply nl_app; try nl_lit; apply nl_f32.
  - unfold show_p_range. repeat apply nl_app; try nl_lit; apply nl_f32.
  - apply nl_f32.
Qed.
Lemma nl_image_list : forall l, nl (show_image_set_list l).
Proof.
  intros [l|]; cbn [show_image_set_list]; [|nl_lit].
  apply nl_join; [nl_lit|]. apply nl_map. intros x _. apply nl_image_set.
Qed.

Lemma Forall_of_option : forall {A} (P : A -> Prop) o x, Forall P (of_option o) -> o = Some x -> P x.
Proof. intros A P o x H ->. inversion H. assumption. Qed.
Lemma Forall_in : forall {A} (P : A -> Prop) l x, Forall P l -> In x l -> P x.
Proof. intros A P l x H. exact (proj1 (Forall_forall _ _) H x). Qed.
Lemma Forall_flat : forall {A B} (P : B -> Prop) (f : A -> list B) l x,
  Forall P (flat_map f l) -> In x l -> Forall P (f x).
Proof.
  intros A B P f l x H Hx. apply Forall_forall. intros y Hy.
  apply (Forall_in _ _ y H). apply in_flat_map. eauto.
Qed.

Lemma nl_attr_to_string : forall t s, nl s -> nl (attr_to_string t s).
Proof.
  intros t s H. unfold attr_to_string. destruct (is_empty s); [apply nl_nil|].
  apply nl_app; [destruct t; nl_lit|]. apply nl_app; [nl_lit | exact H].
Qed.
Lemma nl_fmtp : forall f, Forall nl (attr_texts (AFmtp f)) -> nl (show_fmtp f).
Proof.
  intros f H. cbn [attr_texts] in H. inversion H as [|d l Hd Hu Eq]; subst. clear H. unfold show_fmtp.
  assert (P : nl (show_fmtp_params (fmtp_parameters f))).
  { unfold show_fmtp_params. destruct (rtx (fmtp_parameters f)) as [r|].
    - unfold show_rtx. destruct (rtx_time r); nls.
    - destruct (non_empty _); [exact Hd|].
      destruct (encodings (fmtp_parameters f)) as [|e es]; [|apply nl_join; [nl_lit|]; apply nl_map; intros; apply nl_N].
      apply nl_join; [nl_lit|]. apply nl_filter. unfold fmtp_param_list.
      repeat (apply Forall_cons; [solve [nls; (eapply Forall_in; [|eassumption]; eassumption)]|]). apply Forall_nil. }
  destruct (is_empty _); [apply nl_nil|]. nls.
Qed.
Lemma nl_rid : forall r, Forall nl (attr_texts (ARid r)) -> nl (show_rid r).
Proof.
  intros r H. cbn [attr_texts] in H. inversion H as [|d l Hd Hu Eq]; subst. clear H.
  apply Forall_app in Hu. destruct Hu as [Hu He]. unfold show_rid.
  apply nl_app; [exact Hd|]. apply nl_app; [nl_lit|]. apply nl_app; [destruct (rid_direction r); nl_lit|].
  match goal with |- nl (match ?j with _ => _ end) => assert (P : nl j) end.
  { apply nl_join; [nl_lit|]. apply nl_filter. repeat (apply Forall_cons; [|]); try apply Forall_nil.
    - nls.
    - unfold show_rid_params. apply nl_join; [nl_lit|]. apply nl_filter.
      repeat (apply Forall_cons; [solve [nls; (eapply Forall_in; [|eassumption]; eassumption)]|]). apply Forall_nil.
    - nls; (eapply Forall_in; [|eassumption]; eassumption). }
  destruct (join _ _); [apply nl_nil|]. apply nl_app; [nl_lit | exact P].
Qed.

Lemma nl_attr : forall a, Forall nl (attr_texts a) -> nl (show_attr a).
Proof.
  intros a H. destruct a; cbn [show_attr]; try (apply nl_attr_to_string); try (cbn [show_attr_type]; nl_lit);
    cbn [attr_texts] in H; try (apply nl_N).
  - (* candidate *)
    inversion H as [|d l Hd Hu Eq]; subst. clear H. apply Forall_app in Hu. destruct Hu as [H1 Hu].
    apply Forall_app in Hu. destruct Hu as [H2 Hu]. apply Forall_app in Hu. destruct Hu as [H3 H4].
    unfold show_candidate. repeat apply nl_app; try assumption; try apply nl_N; try nl_lit.
    + destruct (transport a); nl_lit.
    + apply nl_address, H1.
    + destruct (c_type a); nl_lit.
    + apply nl_opt; try nl_lit. intros x K. apply nl_address. apply (Forall_flat _ _ _ x H2). rewrite K. left. reflexivity.
    + apply nl_opt; try nl_lit. intros x K. apply nl_N.
    + apply nl_opt; try nl_lit. intros x K. destruct x; nl_lit.
    + apply nl_opt; try nl_lit. intros x K. apply nl_N.
    + apply nl_opt; try nl_lit. intros x K. exact (Forall_of_option _ _ _ H3 K).
    + apply nl_opt; try nl_lit. intros x K. apply nl_N.
    + apply nl_flat. intros nv K. apply (Forall_flat _ _ _ _ H4) in K. inversion K as [|n l K1 K2]; subst.
      inversion K2; subst. nls.
  - destruct a; cbn [show_dtls_message]; inversion H; subst; nls.
  - inversion H as [|d l Hd Hu Eq]; subst. unfold show_extmap. repeat apply nl_app; try assumption; try apply nl_N; try nl_lit.
    + apply nl_opt; try nl_lit. intros x K. destruct x; nl_lit.
    + apply nl_opt; try nl_lit. intros x K. exact (Forall_of_option _ _ _ Hu K).
  - unfold show_fingerprint. apply nl_app; [destruct (fp_hash a); nl_lit|]. apply nl_app; [nl_lit|].
    apply nl_join; [nl_lit|]. apply nl_map. intros. apply nl_hex, show_HEX_chars.
  - apply nl_fmtp. exact H.
  - apply nl_f64.
  - unfold show_group. apply nl_app; [destruct (grp_semantics a); nl_lit|]. apply nl_vec; try nl_lit.
    intros x K. exact (Forall_in _ _ _ H K).
  - apply nl_join; [nl_lit | exact H].
  - inversion H; assumption.
  - inversion H; assumption.
  - inversion H; assumption.
  - unfold show_image_attr. apply nl_app; [destruct (img_pt a); [apply nl_N | nl_lit]|].
    apply nl_app; (apply nl_opt; [nl_lit | nl_lit | intros; apply nl_image_list]).
  - inversion H; assumption.
  - inversion H; assumption.
  - inversion H as [|d l Hd Hu Eq]; subst. unfold show_msid. apply nl_app; [exact Hd|].
    apply nl_opt; try nl_lit. intros x K. exact (Forall_of_option _ _ _ Hu K).
  - inversion H as [|d l Hd Hu Eq]; subst. unfold show_msid_semantic. apply nl_app; [exact Hd|].
    apply nl_app; [nl_lit|]. destruct (ms_msids a); [nl_lit|]. apply nl_join; [nl_lit | exact Hu].
  - apply nl_rid. exact H.
  - unfold show_remote_candidate. repeat apply nl_app; try apply nl_N; try nl_lit. apply nl_address, H.
  - inversion H as [|d l Hd Hu Eq]; subst. unfold show_rtpmap. nls.
  - unfold show_rtcp. destruct (rtcp_unicast_addr a) as [x|]; [|apply nl_N].
    apply nl_app; [apply nl_N|]. apply nl_app; [nl_lit|]. apply nl_typed.
    cbn [of_option flat_map] in H. rewrite app_nil_r in H. exact H.
  - inversion H as [|d l Hd Hu Eq]; subst. inversion Hu as [|d' l' Hd' Hu' Eq']; subst. unfold show_rtcp_fb.
    apply nl_app; [destruct (fb_payload_type a); cbn [show_payload_type]; nls|].
    apply nl_app; [nl_lit|]. apply nl_app; [destruct (fb_feedback_type a); nl_lit|]. nls.
  - unfold show_sctpmap. nls.
  - destruct a; nl_lit.
  - (* simulcast *)
    unfold show_simulcast. apply nl_join; [nl_lit|]. apply nl_filter.
    assert (V : forall v, In v (sim_send a ++ sim_receive a) -> nl (show_simulcast_version v)).
    { intros v Hv. apply (Forall_flat _ _ _ _ H) in Hv. unfold show_simulcast_version.
      apply nl_join; [nl_lit|]. apply nl_map. intros i Hi. unfold show_simulcast_id.
      apply nl_app; [destruct (sid_paused i); nl_lit|]. apply (Forall_in _ _ _ Hv), in_map, Hi. }
    repeat apply Forall_cons; try apply Forall_nil; apply nl_vec; try nl_lit; intros x Hx; apply V, in_or_app; auto.
  - apply nl_ssrc, H.
  - apply nl_app; [apply nl_attr_to_string; destruct sem; nl_lit|]. apply nl_app; [nl_lit|].
    apply nl_join; [nl_lit|]. apply nl_map. intros x Hx. apply nl_ssrc. exact (Forall_flat _ _ _ _ H Hx).
Qed.

Lemma nl_item : forall ty, no_line_feed ty -> nl (item_text ty).
Proof.
  intros ty H. unfold no_line_feed in H. destruct ty as [a|b|c|m|o|s|t|n]; cbn [item_text item_texts] in *.
  - apply nl_attr, H.
  - destruct b; cbn [show_bandwidth]; try solve [nls]. inversion H; subst. nls.
  - unfold show_connection. apply nl_app; [apply nl_typed, H|]. nls.
  - unfold show_media_line. repeat apply nl_app; try nl_lit; try apply nl_N; try (apply nl_param; nl_lit).
    + destruct (ml_media m); nl_lit.
    + destruct (ml_proto m); nl_lit.
    + unfold show_format_list. destruct (ml_formats m); [nls | apply nl_join; [nl_lit | exact H]].
  - inversion H; subst. unfold show_origin. apply nl_app; [assumption|].
    do 2 (apply nl_app; [nl_lit|]; apply nl_app; [apply nl_N|]).
    apply nl_app; [nl_lit|]. apply nl_typed. assumption.
  - inversion H; assumption.
  - unfold show_timing. nls.
  - apply nl_N.
Qed.
Lemma nl_line : forall ty, no_line_feed ty -> nl (printed_line ty).
Proof.
  intros ty H. unfold printed_line. apply nl_cons; [destruct ty; discriminate|].
  apply nl_cons; [discriminate|]. apply nl_item, H.
Qed.

(** ** The text is made of lines *)
Lemma crlf_app : forall a b, crlf_lines (a ++ b) = crlf_lines a ++ crlf_lines b.
Proof. intros a b. apply flat_map_app. Qed.
Lemma crlf_cons : forall a b, crlf_lines (a :: b) = a ++ crlf ++ crlf_lines b.
Proof. intros a b. unfold crlf_lines. cbn [flat_map]. rewrite <- app_assoc. reflexivity. Qed.
Lemma join_lines : forall pre ts, ts <> [] ->
  pre ++ join (crlf ++ pre) ts ++ crlf = crlf_lines (map (app pre) ts).
Proof.
  intros pre ts H. induction ts as [|t ts IH]; [congruence|].
  cbn [map]. rewrite crlf_cons. destruct ts as [|u ts].
  - cbn [join map]. unfold crlf_lines. cbn [flat_map]. rewrite app_nil_r, <- app_assoc. reflexivity.
  - rewrite join_cons by discriminate. rewrite <- IH by discriminate. rewrite <- !app_assoc. reflexivity.
Qed.
Lemma vec_lines : forall {A} pre (show : A -> str) l, (forall x, In x l -> show x <> []) ->
  show_vec pre crlf (crlf ++ pre) show l = crlf_lines (map (fun x => pre ++ show x) l).
Proof.
  intros A pre show l H. destruct l as [|x l]; [reflexivity|].
  unfold show_vec. rewrite filter_all.
  - rewrite join_lines by discriminate. rewrite map_map. reflexivity.
  - apply forallb_forall. intros y Hy. apply in_map_iff in Hy. destruct Hy as (z & <- & Hz).
    apply H in Hz. unfold non_empty, is_empty. destruct (show z); [congruence|reflexivity].
Qed.
Lemma attributes_lines : forall l,
  show_vec (lit "a=") crlf (crlf ++ lit "a=") show_attr l = crlf_lines (attribute_lines l).
Proof.
  intros l. destruct l as [|a l]; [reflexivity|]. unfold show_vec, attribute_lines.
  set (f := fun t : str => match t with [] => false | _ :: _ => true end).
  assert (F : filter non_empty (map show_attr (a :: l)) = filter f (map show_attr (a :: l))).
  { apply filter_ext. intros [|]; reflexivity. }
  rewrite F. destruct (filter f (map show_attr (a :: l))) as [|t ts]; [reflexivity|].
  apply join_lines. discriminate.
Qed.
Lemma bandwidth_nonempty : forall b, show_bandwidth b <> [].
Proof. intros [n|n|n|t n]; cbn [show_bandwidth]; try discriminate. destruct t; discriminate. Qed.
Lemma bandwidths_lines : forall l,
  show_vec (lit "b=") crlf (crlf ++ lit "b=") show_bandwidth l =
  crlf_lines (map (fun b => printed_line (TyBandwidth b)) l).
Proof. intro l. rewrite vec_lines by (intros; apply bandwidth_nonempty). reflexivity. Qed.
Lemma opt_lines : forall {A} pre (show : A -> str) (o : option A),
  show_opt pre show crlf o = crlf_lines (map (fun x => pre ++ show x) (of_option o)).
Proof.
  intros A pre show [x|]; [|reflexivity]. cbn [show_opt of_option map].
  unfold crlf_lines. cbn [flat_map]. rewrite app_nil_r, <- app_assoc. reflexivity.
Qed.
Lemma media_is_lines : forall m, show_media m = crlf_lines (media_lines m).
Proof.
  intro m. unfold show_media, media_lines. rewrite bandwidths_lines, attributes_lines, opt_lines.
  rewrite crlf_cons, !crlf_app. reflexivity.
Qed.
Lemma session_is_lines : forall s, show_session s = crlf_lines (session_lines s).
Proof.
  intro s. unfold show_session, session_lines.
  rewrite bandwidths_lines, attributes_lines, !opt_lines.
  rewrite !crlf_cons, !crlf_app.
  assert (M : flat_map show_media (s_media s) = crlf_lines (flat_map media_lines (s_media s))).
  { generalize (s_media s) as l. intro l. induction l as [|m l IH]; [reflexivity|]. cbn [flat_map].
    rewrite crlf_app, IH, media_is_lines. reflexivity. }
  rewrite M. reflexivity.
Qed.

Lemma nl_attribute_lines : forall l, Forall (fun a => no_line_feed (TyAttribute a)) l ->
  Forall nl (attribute_lines l).
Proof.
  intros l H. unfold attribute_lines. destruct l as [|a l]; [constructor|].
  assert (K : Forall nl (filter (fun t : str => match t with [] => false | _ => true end) (map show_attr (a :: l)))).
  { apply nl_filter, nl_map. intros x Hx. apply nl_attr. exact (Forall_in _ _ _ H Hx). }
  destruct (filter _ _) as [|t ts]; [repeat constructor; nl_lit|].
  apply nl_map. intros x Hx. apply nl_app; [nl_lit|]. exact (Forall_in _ _ _ K Hx).
Qed.
Lemma clean_map : forall {A} (c : A -> sdp_type) l, Forall no_line_feed (map c l) ->
  Forall nl (map (fun x => printed_line (c x)) l).
Proof.
  intros A c l H. apply nl_map. intros x Hx. apply nl_line. apply (Forall_in _ _ _ H), in_map, Hx.
Qed.
Lemma clean_attributes : forall l, Forall no_line_feed (map TyAttribute l) -> Forall nl (attribute_lines l).
Proof.
  intros l H. apply nl_attribute_lines. apply Forall_forall. intros x Hx. apply (Forall_in _ _ _ H), in_map, Hx.
Qed.
Lemma nl_media_lines : forall m, Forall no_line_feed (media_items m) -> Forall nl (media_lines m).
Proof.
  intros m H. unfold media_items in H. inversion H as [|x l H0 H1 Eq]; subst.
  apply Forall_app in H1. destruct H1 as [H1 H2]. apply Forall_app in H2. destruct H2 as [H2 H3].
  unfold media_lines. apply Forall_cons; [apply nl_line, H0|].
  apply Forall_app. split; [apply clean_map, H2|].
  apply Forall_app. split; [apply clean_map, H1 | apply clean_attributes, H3].
Qed.
Lemma nl_session_lines : forall s, session_clean s -> Forall nl (session_lines s).
Proof.
  intros s [H N]. unfold session_items in H. inversion H as [|x l H0 H1 Eq]; subst.
  inversion H1 as [|x' l' Ho H2 Eq']; subst. clear H H1.
  apply Forall_app in H2. destruct H2 as [Ht H2]. apply Forall_app in H2. destruct H2 as [Hc H2].
  apply Forall_app in H2. destruct H2 as [Hb H2]. apply Forall_app in H2. destruct H2 as [Ha Hm].
  unfold session_lines. repeat (apply Forall_cons; [|]).
  - apply nl_line, H0.
  - apply nl_line, Ho.
  - apply nl_line. constructor; [|constructor]. destruct (s_session s); [exact N | nl_lit].
  - apply Forall_app. split; [apply clean_map, Ht|]. apply Forall_app. split; [apply clean_map, Hb|].
    apply Forall_app. split; [apply clean_map, Hc|]. apply Forall_app. split; [apply clean_attributes, Ha|].
    apply Forall_forall. intros y Hy. apply in_flat_map in Hy. destruct Hy as (m & Hm1 & Hy).
    refine (Forall_in _ _ _ (nl_media_lines m _) Hy). exact (Forall_flat _ _ _ _ Hm Hm1).
Qed.
Theorem session_lines_ok : forall s, session_clean s ->
  show_session s = crlf_lines (session_lines s) /\ lines (show_session s) = session_lines s /\
  Forall (fun l => ~ In 10 l) (session_lines s).
Proof.
  intros s H. split; [apply session_is_lines|]. pose proof (nl_session_lines s H) as K.
  split; [|exact K]. rewrite session_is_lines.
  replace (crlf_lines (session_lines s)) with (flat_map (fun x => x ++ crlf) (session_lines s) ++ [])
    by apply app_nil_r.
  rewrite lines_flat; [apply app_nil_r|]. eapply Forall_impl; [|exact K]. intros l Hl.
  apply contains_not_In, Hl.
Qed.
End WithExt.

(** * Lemmas for C76: sessions *)
From Coq Require Import List NArith ZArith Bool Ascii String Lia ZifyBool ZifyNat ZifyN.
From Verif Require Import Str Num Net Types Ext Show Session Tools Serde Debug SpecDoc SpecVal SpecItems SpecTools SpecSerde SpecDebug
  StrLemmas NumLemmas NetLemmas PSerde PSerde2 PSerde3 PSerde4 PSerde5 PDebug PDebug2 PDoc2.
Import ListNotations.
Open Scope N_scope.
Open Scope list_scope.

(** ** Shapes without floats and addresses *)
Fixpoint plain (s : schema) : bool :=
  let name (n : string) := forallb word_char (of_string n) in
  match s with
  | ScF32 | ScF64 | ScError => false
  | ScBool | ScUint _ | ScStr => true
  | ScOption s | ScSeq s => plain s
  | ScTuple l => forallb plain l
  | ScStruct n l => name n && forallb (fun f => match f with (k, s) => name k && plain s end) l
  | ScEnum _ l => forallb (fun f => match f with (n, sh) => name n && match sh with
      | VUnit => true
      | VNew s => negb (str_eqb (of_string n) (lit "Ip")) && plain s
      | VTuple l => forallb plain l
      | VStruct l => forallb (fun f => match f with (k, s) => name k && plain s end) l end end) l
  end.
Section Leaves.
Context (P32 P64 : N -> Prop) (PI PN : str -> Prop) (W : forall w, forallb word_char w = true -> PN w).
Notation lv := (leaves P32 P64 PI PN).
Fixpoint plain_leaves (s : schema) (v : sv) (C : conforms s v) {struct C} : plain s = true -> lv v.
Proof.
  assert (L2 : forall ss l, Forall2 conforms ss l -> forallb plain ss = true -> Forall lv l).
  { fix IH 3. intros ss l K H. destruct K as [|s' x ss l P K]; constructor; cbn [forallb] in H; apply andb_true_iff in H;
      [exact (plain_leaves _ _ P (proj1 H)) | exact (IH _ _ K (proj2 H))]. }
  assert (F2 : forall (ss : list (string * schema)) (l : list (str * sv)), Forall2 (fun s f => fst f = of_string (fst s) /\ conforms (snd s) (snd f)) ss l ->
    forallb (fun f => match f with (k, s) => forallb word_char (of_string k) && plain s end) ss = true -> Forall (fun f => PN (fst f) /\ lv (snd f)) l).
  { fix IH 3. intros ss l K H. destruct K as [|[n s'] x ss l P K]; constructor; cbn [forallb] in H; apply andb_true_iff in H;
      [destruct P as [Q P], H as [H _]; apply andb_true_iff in H; split;
        [rewrite Q; exact (W _ (proj1 H)) | exact (plain_leaves _ _ P (proj2 H))] | exact (IH _ _ K (proj2 H))]. }
  assert (E : forall (vs : list (string * variant_shape schema)) i v x, nth_error vs i = Some (v, x) -> forall f, forallb f vs = true -> f (v, x) = true).
  { intros vs i w x N f K. rewrite forallb_forall in K. apply K. eapply nth_error_In, N. }
  destruct C; intro K; cbn [plain] in K; try discriminate K;
    try (apply (E _ _ _ _ H) in K; cbn beta iota in K); try (apply andb_true_iff in K; destruct K as [K0 K]; apply W in K0); constructor; try exact K0.
  - exact (plain_leaves _ _ C K).
  - clear -H K plain_leaves. revert l H. fix IH 2. intros l [|x l' P Q]; constructor; [exact (plain_leaves _ _ P K) | exact (IH _ Q)].
  - exact (L2 _ _ H K).
  - exact (F2 _ _ H K).
  - intro Q. rewrite Q in K. discriminate K.
  - apply andb_true_iff in K. exact (plain_leaves _ _ C (proj2 K)).
  - exact (L2 _ _ H0 K).
  - exact (F2 _ _ H0 K).
Qed.

(** ** Values *)
Lemma option_leaves : forall {A} (f : A -> sv) o, (forall x, o = Some x -> lv (f x)) -> lv (sv_option f o).
Proof. intros A f [x|] H; constructor. apply H. reflexivity. Qed.
Lemma vec_leaves : forall {A} (f : A -> sv) l, (forall x, In x l -> lv (f x)) -> lv (sv_vec f l).
Proof. intros A f l H. constructor. rewrite Forall_map. apply Forall_forall. exact H. Qed.
Ltac word := apply W; reflexivity.
Ltac struct := constructor; [word|]; repeat (constructor; [cbn [fst snd]; split; [word|]|]); [..|constructor].
Ltac by_plain K := eapply plain_leaves; [apply K | reflexivity].
Context (I : forall a, PI (show_ip a)).
Lemma address_leaves : forall a, lv (sv_address true a).
Proof. intros [s|a]; constructor; try word; try discriminate; try constructor. intros _. eexists. split; [reflexivity | apply I]. Qed.
Lemma typed_leaves : forall a, lv (sv_typed_address true a).
Proof.
  intros [t s|a]; constructor; try word; try discriminate; try constructor.
  - split; [word|]. by_plain addr_type_conforms.
  - constructor; [|constructor]. split; [word | constructor].
  - intros _. eexists. split; [reflexivity | apply I].
Qed.
Ltac simple := try solve [constructor | apply option_leaves; constructor | apply address_leaves | apply typed_leaves
  | apply option_leaves; intros; apply address_leaves | apply option_leaves; intros; apply typed_leaves].
Lemma candidate_leaves : forall c, lv (sv_candidate true c).
Proof.
  intro c. unfold sv_candidate. struct; simple.
  - destruct (transport c); constructor; word.
  - destruct (c_type c); constructor; word.
  - apply option_leaves. intros [| |] _; constructor; word.
  - apply vec_leaves. intros x _. repeat constructor.
Qed.
Lemma remote_leaves : forall c, lv (sv_remote_candidate true c).
Proof. intro c. unfold sv_remote_candidate. struct; simple. Qed.
Lemma rtcp_leaves : forall c, lv (sv_rtcp true c).
Proof. intro c. unfold sv_rtcp. struct; simple. Qed.
Lemma connection_leaves : forall c, lv (sv_connection true c).
Proof. intro c. unfold sv_connection. struct; simple. Qed.
Lemma origin_leaves : forall c, lv (sv_origin true c).
Proof. intro c. unfold sv_origin. struct; simple. Qed.
Lemma set_leaves : forall x, Forall P32 (set_floats x) -> lv (sv_image_set x).
Proof.
  intros x H. unfold set_floats in H. rewrite !Forall_app in H. destruct H as (H1 & H2 & H3). unfold sv_image_set. struct.
  - by_plain xy_conforms.
  - by_plain xy_conforms.
  - apply option_leaves. intros r Q. rewrite Q in H1. destruct r as [a b|l]; cbn [sv_s_range].
    + constructor; [word|]. inversion H1 as [|? ? A H4]; subst. inversion H4; subst. repeat (constructor; [constructor; assumption|]). constructor.
    + constructor; [word | discriminate|]. apply vec_leaves. intros y Y. constructor. rewrite Forall_forall in H1. auto.
  - apply option_leaves. intros r Q. rewrite Q in H2. inversion H2 as [|? ? A H4]; subst. inversion H4; subst. unfold sv_p_range. struct; constructor; assumption.
  - apply option_leaves. intros r Q. rewrite Q in H3. constructor. exact (Forall_inv H3).
Qed.
Lemma sets_leaves : forall l, Forall P32 (sets_floats l) -> lv (sv_image_set_list l).
Proof.
  intros [l|] H; [|constructor; word]. constructor; [word | discriminate|]. cbn [sets_floats] in H. rewrite Forall_flat_map, Forall_forall in H.
  apply vec_leaves. intros x X. apply set_leaves, H, X.
Qed.
(** The floats of an item. *)
Definition item_floats (t : sdp_type) : Prop :=
  match t with
  | TyAttribute (AImageAttr i) => Forall P32 (sets_floats (img_send i) ++ sets_floats (img_recv i))
  | TyAttribute (AFrameRate x) => P64 x
  | _ => True
  end.
Lemma attr_leaves : forall a, item_floats (TyAttribute a) -> lv (sv_attr true a).
Proof.
  intros a R. destruct a; unfold sv_attr; cbn zeta; constructor; try word; try discriminate;
    try solve [constructor | apply candidate_leaves | apply remote_leaves | apply rtcp_leaves
      | by_plain simulcast_conforms | by_plain rtcp_fb_conforms
      | by_plain extmap_conforms | by_plain fmtp_conforms | by_plain fingerprint_conforms | by_plain sctpmap_conforms | by_plain group_conforms
      | by_plain msid_conforms | by_plain msid_semantic_conforms | by_plain rid_conforms | by_plain rtpmap_conforms | by_plain ssrc_conforms | by_plain strs_conform
      | match goal with |- lv (_ ?x) => destruct x; repeat (constructor; try word; try discriminate) end].
  - constructor. exact R.
  - cbn [item_floats] in R. rewrite Forall_app in R. unfold sv_image_attr. struct; [by_plain payload_conforms | apply sets_leaves, R | apply sets_leaves, R].
  - constructor; [destruct sem; constructor; word|]. constructor; [|constructor]. apply vec_leaves. intros x _. by_plain ssrc_conforms.
Qed.
Context (url_error : str -> str) (addr_error : str) (U : forall m, PN (url_error m)) (AD : PN addr_error).
Lemma ierr_leaves : forall e, lv (dv_ierr url_error addr_error e).
Proof.
  intros [s|f x|s|s|k|k|m|]; unfold dv_ierr; constructor; try word; try discriminate; try solve [constructor; auto].
  - repeat (constructor; [cbn [fst snd]; split; [word | by_plain addr_type_conforms]|]). constructor.
  - constructor; [word|]. constructor; [|constructor]. split; [word|]. destruct k; constructor; word.
  - constructor; [word|]. constructor; [|constructor]. split; [word|]. destruct k; constructor; word.
Qed.
Lemma perr_leaves : forall e, lv (dv_perr url_error addr_error e).
Proof.
  intros [e l n|e l n|m n]; constructor; try word; repeat (constructor; [cbn [fst snd]; split; [word | first [constructor | apply ierr_leaves]]|]); constructor.
Qed.
Lemma session_leaves : forall s, Forall item_floats (session_items s) -> lv (dv_session url_error addr_error s).
Proof.
  intros s H. unfold session_items in H.
  apply Forall_inv_tail, Forall_inv_tail in H. rewrite !Forall_app in H.
  destruct H as (_ & _ & _ & A & M). rewrite Forall_flat_map, Forall_forall in M. rewrite Forall_map in A.
  assert (KA : forall l, Forall (fun a => item_floats (TyAttribute a)) l -> lv (sv_vec (sv_attr true) l)).
  { intros l P. rewrite Forall_forall in P. apply vec_leaves. intros a X. apply attr_leaves, P, X. }
  assert (KC : forall o, lv (sv_option (sv_connection true) o)) by (intro o; apply option_leaves; intros; apply connection_leaves).
  assert (KB : forall l, lv (sv_vec sv_bandwidth l)) by (intro l; apply vec_leaves; intros x _; by_plain bandwidth_conforms).
  unfold dv_session. struct; try solve [constructor | apply KC | apply KB | apply origin_leaves | apply option_leaves; constructor].
  - apply option_leaves. intros x _. by_plain timing_conforms.
  - apply KA, A.
  - apply vec_leaves. intros m X. apply M in X. unfold media_items in X. apply Forall_inv_tail in X. rewrite !Forall_app in X. destruct X as (_ & _ & X). rewrite Forall_map in X.
    unfold sv_media. struct; try solve [apply KC | apply KB].
    + by_plain media_line_conforms.
    + apply KA, X.
  - apply vec_leaves. intros x _. apply perr_leaves.
Qed.
End Leaves.

(** ** Shapes *)
Section Session.
Context (printable : char -> bool) (debug_f32 : f32 -> str) (debug_f64 : f64 -> str) (url_error : str -> str) (addr_error : str).
Notation dv := (dv_session url_error addr_error).
Lemma ierr_dv_conforms : forall e, own_error e -> conforms ierr_schema (dv_ierr url_error addr_error e).
Proof.
  intros [s|f x|s|s|k|k|m|] H; try destruct H; variant; conf; try apply addr_type_conforms; try (apply c_struct; [reflexivity|fields; destruct k; variant]).
Qed.
Lemma perr_dv_conforms : forall e, own_warning e -> conforms perr_schema (dv_perr url_error addr_error e).
Proof. intros [e l n|e l n|m n] H; variant; conf; apply ierr_dv_conforms, H. Qed.
Lemma session_dv_conforms : forall s, Forall own_warning (s_warnings s) -> conforms debug_schema (dv s).
Proof.
  intros s H. assert (K : conforms (ScSeq perr_schema) (sv_vec (dv_perr url_error addr_error) (s_warnings s))).
  { rewrite Forall_forall in H. constructor. rewrite Forall_map. apply Forall_forall. intros w X. apply perr_dv_conforms, H, X. }
  enum. apply c_struct; [reflexivity|]. fields; try exact K; conf;
    first [apply origin_conforms | apply connection_conforms | apply bandwidth_conforms | apply timing_conforms | apply attr_conforms | apply media_conforms].
Qed.

(** ** Nothing is lost *)
Lemma int_err_dv_inj : inj dv_int_err.
Proof. intros [| |] [| |] Q; (reflexivity || discriminate Q). Qed.
Lemma float_err_dv_inj : inj dv_float_err.
Proof. intros [|] [|] Q; (reflexivity || discriminate Q). Qed.
Lemma addr_type_dv_inj : inj sv_addr_type.
Proof. intros [|] [|] Q; (reflexivity || discriminate Q). Qed.
Lemma ierr_dv_inj : inj_on own_error (dv_ierr url_error addr_error).
Proof.
  intros a b Ha Hb Q. destruct a, b; try destruct Ha; try destruct Hb; try discriminate Q; try (injection Q as Q; subst; reflexivity).
  - fields_of dv_ierr Q. f_equal; apply addr_type_dv_inj; assumption.
  - apply (f_equal payload) in Q. cbn [dv_ierr payload] in Q. apply int_err_dv_inj in Q. subst. reflexivity.
  - apply (f_equal payload) in Q. cbn [dv_ierr payload] in Q. apply float_err_dv_inj in Q. subst. reflexivity.
Qed.
Lemma perr_dv_inj : inj_on own_warning (dv_perr url_error addr_error).
Proof.
  intros a b Ha Hb Q. destruct a, b; try discriminate Q; unfold own_warning in Ha, Hb; fields_of dv_perr Q;
    repeat match goal with
    | H : dv_ierr _ _ _ = dv_ierr _ _ _ |- _ => apply (ierr_dv_inj _ _ Ha Hb) in H
    | H : SvStr _ = SvStr _ |- _ => injection H as H
    | H : u64_sv (N.of_nat _) = u64_sv (N.of_nat _) |- _ => injection H as H; apply Nat2N.inj in H
    end; subst; reflexivity.
Qed.
Lemma session_dv_inj : forall s s', ips_ok s -> ips_ok s' -> Forall own_warning (s_warnings s) -> Forall own_warning (s_warnings s') -> dv s = dv s' -> s = s'.
Proof.
  intros s s' I I' O O' Q. fields_of dv_session Q.
  match goal with H : sv_vec (dv_perr _ _) _ = _ |- _ => apply (vec_inj_on _ _ perr_dv_inj _ _ O O') in H end.
  assert (K : with_warnings s [] = with_warnings s' []).
  { apply (session_inj true); [exact I | exact I' |]. unfold sv_session, with_warnings. cbn [s_version s_origin s_session s_connection s_bandwidth s_timing s_attribute s_media s_warnings].
    repeat match goal with H : ?x = ?y :> sv |- context [?x] => rewrite H; clear H end. reflexivity. }
  destruct s, s'. cbn in *. injection K as. subst. reflexivity.
Qed.

(** ** The text *)
Notation text L := (match L with OneLine => debug_session printable debug_f32 debug_f64 url_error addr_error
  | Indented => debug_session_pretty printable debug_f32 debug_f64 url_error addr_error end).
Lemma no_floats : forall s, Forall (item_floats (fun _ => True) (fun _ => True)) (session_items s).
Proof. intro s. apply Forall_forall. intros t _. destruct t as [[]| | | | | | |]; try exact I. apply Forall_forall. auto. Qed.
Lemma floats_any : forall (P32 P64 : N -> Prop) s, (forall x, P32 x) -> (forall x, P64 x) -> Forall (item_floats P32 P64) (session_items s).
Proof. intros P32 P64 s A B. apply Forall_forall. intros t _. destruct t as [[]| | | | | | |]; try exact I; cbn; auto. apply Forall_forall. auto. Qed.
Lemma ip_word : forall a, forallb word_char (show_ip a) = true.
Proof.
  clear. intro a. eapply forallb_weaken; [|apply show_ip_chars]. intro c. unfold ip_char, hex_char, word_char, c_dot, c_colon. cbn. lia.
Qed.
Context (T : debug_texts debug_f32 debug_f64 url_error addr_error).
Lemma session_out : forall L s, laid_out printable debug_f32 debug_f64 L 0 (dv s) (text L s).
Proof.
  intros [|] s.
  - refine (compact_out_n printable debug_f32 debug_f64 (fun _ => True) (fun _ => True) (fun _ => True) (fun _ => True) (S (vsize (dv s))) (dv s) 0 _ _); [lia|].
    apply session_leaves; auto. apply no_floats.
  - refine (pretty_out_n printable debug_f32 debug_f64 (S (vsize (dv s))) (dv s) _ _); [lia|].
    apply session_leaves.
    + exact word_flat.
    + intro a. apply word_flat, ip_word.
    + intro m. apply (clean_flat printable), ascii_clean, (url_clean _ _ _ _ T).
    + apply (clean_flat printable), ascii_clean, (addr_clean _ _ _ _ T).
    + apply floats_any; intro x; apply word_flat; [apply (f32_word _ _ _ _ T) | apply (f64_word _ _ _ _ T)].
Qed.
Lemma session_clean : forall L s c, In c (text L s) -> clean printable c \/ (L = Indented /\ c = 10).
Proof.
  intros L s c H. assert (K : Forall (clean_or_newline printable L) (text L s)).
  { refine (out_clean printable debug_f32 debug_f64 (S (vsize (dv s))) L (dv s) 0 _ _ _ (session_out L s)); [lia|].
    apply session_leaves.
    + apply word_clean.
    + intro a. apply word_clean, ip_word.
    + intro m. apply ascii_clean, (url_clean _ _ _ _ T).
    + apply ascii_clean, (addr_clean _ _ _ _ T).
    + apply floats_any; intro x; apply word_clean; [apply (f32_word _ _ _ _ T) | apply (f64_word _ _ _ _ T)]. }
  rewrite Forall_forall in K. exact (K c H).
Qed.
Lemma set_numbers : forall x, image_set_range x -> Forall (fun y => f32_is_nan y = false) (set_floats x) ->
  Forall (fun y => u32 y /\ f32_is_nan y = false) (set_floats x).
Proof.
  intros x (_ & _ & A & B & C) H. apply Forall_and; [|exact H]. unfold set_floats. rewrite !Forall_app. repeat split.
  - destruct (set_sar x) as [[a b|l]|]; [|apply A|constructor]. repeat constructor; apply A.
  - destruct (set_par x); [|constructor]. repeat constructor; apply B.
  - destruct (set_q x); [|constructor]. repeat constructor. exact C.
Qed.
Lemma sets_numbers : forall l, image_list_range l -> Forall (fun y => f32_is_nan y = false) (sets_floats l) ->
  Forall (fun y => u32 y /\ f32_is_nan y = false) (sets_floats l).
Proof.
  intros [l|] R H; [|constructor]. cbn [sets_floats image_list_range] in *. rewrite Forall_flat_map in *. rewrite Forall_forall in *.
  intros x X. apply set_numbers; auto.
Qed.
Lemma session_numbers : forall s, Forall item_range (session_items s) -> images_are_numbers s ->
  Forall (item_floats (fun x => u32 x /\ f32_is_nan x = false) (fun x => u64 x /\ f64_is_nan x = false)) (session_items s).
Proof.
  intros s R H. unfold images_are_numbers in H. rewrite Forall_forall in *. intros t X. specialize (R t X). specialize (H t X).
  destruct t as [[]| | | | | | |]; try exact I; cbn [item_floats item_range attr_range] in *.
  - tauto.
  - rewrite Forall_app in *. split; apply sets_numbers; tauto.
Qed.
Lemma session_legible : forall s, Forall item_range (session_items s) -> images_are_numbers s -> legible (dv s).
Proof.
  intros s R H. apply session_leaves; auto. { apply ip_word. } exact (session_numbers s R H).
Qed.
Lemma session_apart : forall L s s', Forall item_range (session_items s) -> Forall item_range (session_items s') ->
  images_are_numbers s -> images_are_numbers s' -> Forall own_warning (s_warnings s) -> Forall own_warning (s_warnings s') ->
  text L s = text L s' -> s = s'.
Proof.
  intros L s s' R R' N N' O O' Q. apply session_dv_inj; auto; try (apply session_ips; assumption).
  apply (text_read printable debug_f32 debug_f64 url_error addr_error T debug_schema L 0 _ _ (text L s)); try reflexivity.
  - apply session_dv_conforms, O.
  - apply session_dv_conforms, O'.
  - apply session_legible; assumption.
  - apply session_legible; assumption.
  - apply session_out.
  - rewrite Q. apply session_out.
Qed.
End Session.

(** ** Accepted texts *)
Section WithExt.
Context {E : Ext}.
Lemma unsupported_is : forall line n e l k, parse_sdp_line line n = Err (PUnsupported e l k) -> exists m, e = EUnsupported m.
Proof.
  intros line n e l k H. unfold parse_sdp_line in H. destruct (negb (contains c_eq line)); [discriminate H|].
  destruct (splitn 2 c_eq line) as [|t rest]; [discriminate H|]. cbv zeta in H.
  destruct (1 <? byte_len (trim t)); [discriminate H|]. destruct (is_empty (trim t)); [discriminate H|].
  destruct rest as [|v rest]; [discriminate H|]. match type of H with (if ?b then _ else _) = _ => destruct b end; [discriminate H|].
  destruct (parse_value (to_lower (trim t)) (trim v) v) as [ty|e0|]; try discriminate H.
  destruct e0; try discriminate H. injection H as <- _ _. eexists. reflexivity.
Qed.
Lemma reads_own : forall n l ts ws, Reads n l ts ws -> Forall own_warning ws.
Proof.
  intros n l ts ws R. induction R; try assumption; constructor; try assumption.
  match goal with H : parse_sdp_line _ _ = Err _ |- _ => apply unsupported_is in H; destruct H as [m ->] end. exact I.
Qed.
Lemma accepted_own : forall sdp b s, parse_sdp sdp b = Ok s -> Forall own_warning (s_warnings s).
Proof. intros sdp b s P. apply document in P. destruct P as (_ & ts & ws & R & <- & _). exact (reads_own _ _ _ _ R). Qed.
End WithExt.

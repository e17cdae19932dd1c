(** * The texts of the errors of attributes (proofs for C69) *)
From Coq Require Import List NArith ZArith Bool Ascii String Lia.
From Verif Require Import Str Num Net Types Ext Show Address AttrParse Media Session.
From Verif Require Import SpecApi SpecDoc SpecVal SpecUnsup SpecWarn SpecWhy SpecCause.
Import ListNotations.
Open Scope N_scope.
Open Scope list_scope.

Definition listed (e : ierr) : Prop := forall m, e = EGeneric m -> listed_text m.
Definition spoken (r : rule) : Prop := forall e, snd r e -> listed e.
Lemma sp_all : forall rs, Forall spoken rs -> spoken (all rs).
Proof. intros rs F e H. induction H; inversion F; subst; auto. Qed.
Lemma sp_each : forall r l, (forall x, spoken (r x)) -> spoken (each r l).
Proof. intros r l H. apply sp_all. apply Forall_forall. intros x I. apply in_map_iff in I. destruct I as (y & <- & _). apply H. Qed.
Lemma sp_running : forall r l seen, (forall s x, spoken (r s x)) -> spoken (all (running r seen l)).
Proof.
  intros r l seen H. apply sp_all. revert seen. induction l as [|x l IH]; intro seen; cbn [running]; constructor; auto.
Qed.
Lemma sp_when : forall p r, spoken r -> spoken (when p r).
Proof. intros p r H e [_ X]. exact (H e X). Qed.
Lemma sp_begins : forall p t, existsb (String.eqb p) attribute_prefixes = true -> listed (EGeneric (of_string p ++ t)).
Proof.
  intros p t H m Q. injection Q as <-. right. left. exists p, t. split; [|reflexivity].
  apply existsb_exists in H. destruct H as (x & I & K). apply String.eqb_eq in K. congruence.
Qed.
Lemma sp_must : forall p t, existsb (String.eqb t) attribute_messages = true -> spoken (must p t).
Proof.
  intros p t H e [_ ->] m Q. injection Q as <-. left. apply in_map.
  apply existsb_exists in H. destruct H as (x & I & K). apply String.eqb_eq in K. congruence.
Qed.
Lemma sp_number : forall m s, spoken (number m s).
Proof. intros m s e (k & _ & ->) x. discriminate. Qed.
Lemma sp_known : forall p, spoken (known p).
Proof. intros p e []. Qed.
Lemma sp_about : forall ws i r, (forall w, spoken (r w)) -> spoken (about ws i r).
Proof. intros ws i r H e (w & _ & X). exact (H w e X). Qed.
Lemma sp_say : forall p b t, existsb (String.eqb b) attribute_prefixes = true -> spoken (say p (of_string b ++ t)).
Proof. intros p b t H e [_ ->]. apply sp_begins, H. Qed.
Lemma sp_words : forall v r, (forall l, spoken (r l)) -> spoken (in_words v r).
Proof. intros v r H e (l & _ & X). exact (H l e X). Qed.
Lemma sp_fields : forall s v r, (forall l, spoken (r l)) -> spoken (in_fields s v r).
Proof. intros s v r H e (l & _ & X). exact (H l e X). Qed.
Lemma sp_parts : forall n v r, (forall l, spoken (r l)) -> spoken (in_parts n v r).
Proof. intros n v r H e (l & _ & X). exact (H l e X). Qed.
Lemma sp_brackets : forall s v r, (forall l, spoken (r l)) -> spoken (in_brackets s v r).
Proof. intros s v r H e (l & _ & X). exact (H l e X). Qed.
Lemma sp_before : forall s v r, (forall l, spoken (r l)) -> spoken (before s v r).
Proof. intros s v r H. apply sp_fields. intro l. apply sp_about, H. Qed.
Lemma sp_cut : forall s v r, (forall a b, spoken (r a b)) -> spoken (at_cut s v r).
Proof. intros s v r H e (a & b & _ & X). exact (H a b e X). Qed.
Lemma sp_prefix : forall p v r, (forall x, spoken (r x)) -> spoken (after_prefix p v r).
Proof. intros p v r H e (x & _ & X). exact (H x e X). Qed.
Lemma sp_trimmed : forall v r, (forall x, spoken (r x)) -> spoken (trimmed v r).
Proof. intros v r H e (x & _ & X). exact (H x e X). Qed.
Lemma sp_enclosed : forall v t r, existsb (String.eqb t) attribute_messages = true -> (forall x, spoken (r x)) -> spoken (enclosed v t r).
Proof.
  intros v t r Ht H. apply sp_all. constructor; [apply sp_must, Ht|]. constructor; [|constructor].
  intros e (x & _ & X). exact (H x e X).
Qed.
Lemma sp_names : forall is t n, Forall (fun p => spoken (snd p)) t -> spoken (by_name is t n).
Proof. intros is t n F e (w & r & I & _ & X). rewrite Forall_forall in F. exact (F _ I e X). Qed.
Lemma sp_hex : forall m s, spoken (hex_number m s).
Proof. intros m s e (k & _ & ->) x. discriminate. Qed.
Lemma sp_quoted : forall p t s t', existsb (String.eqb t) attribute_prefixes = true -> spoken (say_quoted p t s t').
Proof. intros p t s t' H e (_ & q & _ & ->). apply sp_begins, H. Qed.

Section WithExt.
Context {E : Ext}.
Lemma sp_address : forall t s, spoken (address_of_kind t s).
Proof.
  intros t s e (k & _ & [(_ & m & _ & [[_ ->]|[_ ->]])|[(_ & n & _ & ->)|(_ & n & _ & ->)]]) x; discriminate.
Qed.
Lemma sp_address_text : forall s, spoken (address_text s).
Proof. intros s e (_ & m & _ & [[_ ->]|[_ ->]]) x; discriminate. Qed.
Lemma sp_float32 : forall s, spoken (float32 s).
Proof. intros s e (m & _ & ->) x. discriminate. Qed.
Lemma sp_float64 : forall s, spoken (float64 s).
Proof. intros s e (m & _ & ->) x. discriminate. Qed.
Lemma sp_family : forall s, spoken (family_word s).
Proof. intros s e (_ & ->) x. discriminate. Qed.
Lemma sp_payload : forall s, spoken (payload s).
Proof. intros s e (_ & X). exact (sp_number _ _ e X). Qed.
End WithExt.
Ltac speak := match goal with
  | |- Forall _ [] => constructor
  | |- Forall _ (_ :: _) => constructor; [cbn [snd]; speak | speak]
  | |- spoken (must _ _) => apply sp_must; reflexivity
  | |- spoken (filled _ _) => apply sp_must; reflexivity
  | |- spoken (network _) => apply sp_must; reflexivity
  | |- spoken (present _ _ _) => apply sp_must; reflexivity
    | |- spoken (say_quoted _ _ _ _) => apply sp_quoted; reflexivity
  | |- spoken (direction_word _) => apply (sp_say _ "Unknown direction description found: '"); reflexivity
  | |- spoken (number _ _) => apply sp_number
  | |- spoken (hex_number _ _) => apply sp_hex
  | |- spoken (known _) => apply sp_known
  | |- spoken (address_of_kind _ _) => apply sp_address
  | |- spoken (address_text _) => apply sp_address_text
  | |- spoken (float32 _) => apply sp_float32
  | |- spoken (float64 _) => apply sp_float64
  | |- spoken (family_word _) => apply sp_family
  | |- spoken (payload _) => apply sp_payload
  | |- spoken (small_number _ _ _ _) => unfold small_number; speak
  | |- spoken (all (running _ _ _)) => apply sp_running; intros; speak
  | |- spoken (all _) => apply sp_all; speak
  | |- spoken (each _ _) => apply sp_each; intro; speak
  | |- spoken (when _ _) => apply sp_when; speak
  | |- spoken (about _ _ _) => apply sp_about; intro; speak
  | |- spoken (in_words _ _) => apply sp_words; intro; speak
  | |- spoken (in_fields _ _ _) => apply sp_fields; intro; speak
  | |- spoken (in_parts _ _ _) => apply sp_parts; intro; speak
  | |- spoken (in_brackets _ _ _) => apply sp_brackets; intro; speak
  | |- spoken (before _ _ _) => apply sp_before; intro; speak
  | |- spoken (at_cut _ _ _) => apply sp_cut; intros ? ?; speak
  | |- spoken (after_prefix _ _ _) => apply sp_prefix; intro; speak
  | |- spoken (trimmed _ _) => apply sp_trimmed; intro; speak
  | |- spoken (enclosed _ _ _) => apply sp_enclosed; [reflexivity|]; intro; speak
  | |- spoken (by_name _ _ _) => apply sp_names; speak
  | _ => idtac end.

Section WithExt2.
Context {E : Ext}.
Lemma sp_candidate : forall v, spoken (candidate_rule v).
Proof.
  intro v. unfold candidate_rule. speak. generalize (skipn 8 l). fix IH 1. intros [|a [|b m]]; cbn [extensions].
  - constructor.
  - speak.
  - constructor; [unfold extension; speak | apply IH].
Qed.
Lemma sp_fingerprint : forall v, spoken (fingerprint_rule v).
Proof.
  intro v. unfold fingerprint_rule. speak; try (unfold octet; speak).
  intros e (h & d1 & d2 & _ & _ & _ & _ & ->). apply (sp_begins "fingerprint has "); reflexivity.
Qed.
Lemma sp_rtcp_fb : forall v, spoken (rtcp_fb_rule v).
Proof.
  intro v. unfold rtcp_fb_rule, rtcp_fb_rules. speak. unfold trr_int. destruct (nth_error _ _); speak.
Qed.
Lemma sp_sctp_port : forall v, spoken (sctp_port_rule v).
Proof.
  intro v. unfold sctp_port_rule. speak. intros e (n & d & _ & _ & _ & ->). apply (sp_begins "Sctpport port "); reflexivity.
Qed.
Lemma sp_fmtp : forall v, spoken (fmtp_rule v).
Proof.
  intro v. unfold fmtp_rule, fmtp_block_rule. speak. unfold fmtp_parameter_rule, fmtp_table, fmtp_flag. speak;
  apply (sp_say _ "The fmtp parameter '"); reflexivity.
Qed.
Lemma sp_rid : forall v, spoken (rid_rule v).
Proof. intro v. unfold rid_rule, rid_parameters_rule, rid_parameter_rule. speak. Qed.
Lemma sp_image_set : forall v, spoken (image_set_rule v).
Proof.
  intro v. unfold image_set_rule. speak; unfold xy_rule; speak.
  unfold image_key. speak; unfold sar_rule, par_rule; speak; unfold float_range_rule; speak.
Qed.
Lemma sp_image_list : forall l next, (forall m, spoken (next m)) -> spoken (image_list l next).
Proof.
  intros l next H. unfold image_list. speak. intros e (first & more & _ & [[_ X]|[_ X]]).
  - exact (sp_each _ _ sp_image_set e X).
  - exact (H _ e X).
Qed.
Lemma sp_image_attr : forall v, spoken (image_attr_rule v).
Proof.
  intro v. unfold image_attr_rule. speak. apply sp_image_list. intro m. speak. apply sp_image_list. intro. speak.
Qed.
Lemma sp_table : forall v, Forall (fun p => spoken (snd p)) (attribute_table v).
Proof.
  intro v. unfold attribute_table. speak;
    first [ apply sp_candidate | apply sp_fingerprint | apply sp_rtcp_fb | apply sp_sctp_port | apply sp_fmtp
          | apply sp_rid | apply sp_image_attr
          | unfold dtls_rule, extmap_rule, framerate_rule, group_rule, msid_rule, msid_semantic_rule, remote_candidates_rule,
              rtpmap_rule, rtcp_rule, sctpmap_rule, simulcast_rule, simulcast_list, ssrc_rule, ssrc_group_rule; cbv zeta; speak ].
  apply (sp_say _ "dtls-message has unknown role token '"); reflexivity.
Qed.
Lemma sp_attribute : forall v e, attribute_wrong v e -> listed e.
Proof.
  intros v e (t & _ & [(n & r & f & _ & I & _ & ->)|[(n & r & x & _ & _ & H)|[_ H]]]).
  - intros m Q. right. right. exists f. split; [exact I | congruence].
  - revert H. apply sp_names, sp_table.
  - revert H. apply sp_names, sp_table.
Qed.
Lemma attribute_texts : forall line m, attribute_line_wrong line (EGeneric m) -> listed_text m.
Proof. intros line m (w1 & c & w2 & v & _ & _ & _ & _ & _ & H). exact (sp_attribute v _ H m eq_refl). Qed.
End WithExt2.

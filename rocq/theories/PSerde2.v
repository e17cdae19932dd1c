(** * Lemmas for C57: the crate's types *)
From Coq Require Import List NArith ZArith Bool Ascii String Lia.
From Verif Require Import Str Num Net Types Ext Show Session Tools Serde SpecDoc SpecItems SpecTools SpecSerde StrLemmas NetLemmas PTools PSerde.
Import ListNotations.
Open Scope N_scope.
Open Scope list_scope.

(** ** Shapes *)
Lemma option_conforms : forall {A} (f : A -> sv) s o, (forall x, conforms s (f x)) -> conforms (ScOption s) (sv_option f o).
Proof. intros A f s [x|] H; constructor. apply H. Qed.
Lemma vec_conforms : forall {A} (f : A -> sv) s l, (forall x, conforms s (f x)) -> conforms (ScSeq s) (sv_vec f l).
Proof. intros A f s l H. constructor. apply Forall_forall. intros v I. apply in_map_iff in I. destruct I as (x & <- & _). apply H. Qed.
Lemma octets_conform : forall l, Forall2 conforms (repeat (ScUint 8) (List.length l)) (map (SvUint 8) l).
Proof. induction l; constructor; [constructor | assumption]. Qed.
Lemma digits_length : forall k b n, List.length (be_digits k b n) = k.
Proof. induction k as [|k IH]; intros b n; cbn; [reflexivity|]. rewrite app_length, IH. cbn. lia. Qed.
Lemma c_unit : forall name vs e i vn v, nth_error vs i = Some (v, VUnit) -> e = of_string name -> vn = of_string v ->
  conforms (ScEnum name vs) (SvUnitVariant e i vn).
Proof. intros; subst. eapply conforms_unit; eassumption. Qed.
Lemma c_new : forall name vs e i vn v s x, nth_error vs i = Some (v, VNew s) -> e = of_string name -> vn = of_string v -> conforms s x ->
  conforms (ScEnum name vs) (SvNewtypeVariant e i vn x).
Proof. intros; subst. eapply conforms_new; eassumption. Qed.
Lemma c_tuple : forall name vs e i vn v s x, nth_error vs i = Some (v, VTuple s) -> e = of_string name -> vn = of_string v -> Forall2 conforms s x ->
  conforms (ScEnum name vs) (SvTupleVariant e i vn x).
Proof. intros; subst. eapply conforms_tuple_variant; eassumption. Qed.
Lemma c_fields : forall name vs e i vn v s x, nth_error vs i = Some (v, VStruct s) -> e = of_string name -> vn = of_string v -> fields_conform s x ->
  conforms (ScEnum name vs) (SvStructVariant e i vn x).
Proof. intros; subst. eapply conforms_struct_variant; eassumption. Qed.
Lemma c_struct : forall name e s x, e = of_string name -> fields_conform s x -> conforms (ScStruct name s) (SvStruct e x).
Proof. intros; subst. apply conforms_struct. assumption. Qed.
Create HintDb conf.
Ltac fields := repeat (apply Forall2_cons; [split; [reflexivity|]|]); [..|apply Forall2_nil]; cbn [snd fst].
Ltac values := repeat (apply Forall2_cons); [..|apply Forall2_nil].
Ltac enum := match goal with |- conforms ?s ?v => let s' := eval hnf in s in let v' := eval hnf in v in change (conforms s' v') end.
Ltac variant := enum; first
  [ eapply c_unit; [reflexivity|reflexivity|reflexivity]
  | eapply c_new; [reflexivity|reflexivity|reflexivity|]
  | eapply c_tuple; [reflexivity|reflexivity|reflexivity|values]
  | eapply c_fields; [reflexivity|reflexivity|reflexivity|fields] ].
Ltac conf := repeat first
  [ solve [auto 2 with conf] | apply conforms_bool | apply conforms_uint | apply conforms_f32 | apply conforms_f64 | apply conforms_str
  | apply option_conforms; intro | apply vec_conforms; intro | apply conforms_tuple; values ].
Ltac conf_struct := enum; apply c_struct; [reflexivity|fields; conf].
Ltac conf_units := let v := fresh in intro v; destruct v; variant.
Lemma ip_conforms : forall h a, conforms (ip_schema h) (sv_ip h a).
Proof.
  intros [|] a; [constructor|]. destruct a as [n|n]; variant; constructor.
  - rewrite <- (digits_length 4 256 n) at 1. apply octets_conform.
  - rewrite <- (digits_length 16 256 n) at 1. apply octets_conform.
Qed.
#[export] Hint Resolve ip_conforms : conf.
Section Human.
Context (h : bool).
Lemma address_conforms : forall a, conforms (address_schema h) (sv_address h a).
Proof. intros [s|a]; variant; conf. Qed.
Lemma addr_type_conforms : forall a, conforms (units "AddressType" ["IpV4"; "IpV6"]%string) (sv_addr_type a).
Proof. conf_units. Qed.
Hint Resolve address_conforms addr_type_conforms : conf.
Lemma typed_address_conforms : forall a, conforms (typed_address_schema h) (sv_typed_address h a).
Proof. intros [t d|a]; variant; conf. Qed.
Lemma payload_conforms : forall p, conforms payload_schema (sv_payload_type p).
Proof. intros [n|]; variant; conf. Qed.
Hint Resolve typed_address_conforms payload_conforms : conf.
Lemma candidate_conforms : forall c, conforms (candidate_schema h) (sv_candidate h c).
Proof.
  intro c. conf_struct.
  - destruct (transport c); variant.
  - destruct (c_type c); variant.
  - destruct x; variant.
Qed.
Lemma remote_candidate_conforms : forall c, conforms (remote_candidate_schema h) (sv_remote_candidate h c).
Proof. intro c. conf_struct. Qed.
Lemma simulcast_version_conforms : forall v, conforms simulcast_version_schema (sv_simulcast_version v).
Proof. intro v. conf_struct. conf_struct. Qed.
Hint Resolve simulcast_version_conforms : conf.
Lemma simulcast_conforms : forall s, conforms simulcast_schema (sv_simulcast s).
Proof. intro s. conf_struct. Qed.
Lemma rtcp_conforms : forall r, conforms (rtcp_schema h) (sv_rtcp h r).
Proof. intro r. conf_struct. Qed.
Lemma rtcp_fb_conforms : forall r, conforms rtcp_fb_schema (sv_rtcp_fb r).
Proof. intro r. conf_struct. destruct (fb_feedback_type r); variant. Qed.
Lemma extmap_conforms : forall e, conforms extmap_schema (sv_extmap e).
Proof. intro e. conf_struct. destruct x; variant. Qed.
Lemma rtx_conforms : forall r, conforms rtx_schema (sv_rtx r).
Proof. intro r. conf_struct. Qed.
Hint Resolve rtx_conforms : conf.
Lemma fmtp_params_conforms : forall p, conforms fmtp_params_schema (sv_fmtp_params p).
Proof. intro p. conf_struct. Qed.
Hint Resolve fmtp_params_conforms : conf.
Lemma fmtp_conforms : forall p, conforms fmtp_schema (sv_fmtp p).
Proof. intro p. conf_struct. Qed.
Lemma fingerprint_conforms : forall f, conforms fingerprint_schema (sv_fingerprint f).
Proof. intro f. conf_struct. destruct (fp_hash f); variant. Qed.
Lemma xy_conforms : forall r, conforms xy_schema (sv_xy_range r).
Proof. intros [a b s|l]; variant; conf. Qed.
Hint Resolve xy_conforms : conf.
Lemma image_set_conforms : forall s, conforms image_set_schema (sv_image_set s).
Proof.
  intro s. conf_struct.
  - destruct x; variant; conf.
  - conf_struct.
Qed.
Hint Resolve image_set_conforms : conf.
Lemma image_set_list_conforms : forall l, conforms image_set_list_schema (sv_image_set_list l).
Proof. intros [l|]; variant; conf. Qed.
Hint Resolve image_set_list_conforms : conf.
Lemma image_attr_conforms : forall i, conforms image_attr_schema (sv_image_attr i).
Proof. intro i. conf_struct. Qed.
Lemma sctpmap_conforms : forall s, conforms sctpmap_schema (sv_sctpmap s).
Proof. intro s. conf_struct. Qed.
Lemma group_conforms : forall g, conforms group_schema (sv_group g).
Proof. intro g. conf_struct. destruct (grp_semantics g); variant. Qed.
Lemma msid_conforms : forall m, conforms msid_schema (sv_msid m).
Proof. intro m. conf_struct. Qed.
Lemma msid_semantic_conforms : forall m, conforms msid_semantic_schema (sv_msid_semantic m).
Proof. intro m. conf_struct. Qed.
Lemma rid_conforms : forall r, conforms rid_schema (sv_rid r).
Proof. intro r. conf_struct; [destruct (rid_direction r); variant | conf_struct]. Qed.
Lemma rtpmap_conforms : forall r, conforms rtpmap_schema (sv_rtpmap r).
Proof. intro r. conf_struct. Qed.
Lemma ssrc_conforms : forall s, conforms ssrc_schema (sv_ssrc s).
Proof. intro s. conf_struct. Qed.
Hint Resolve candidate_conforms remote_candidate_conforms simulcast_conforms rtcp_conforms rtcp_fb_conforms extmap_conforms fmtp_conforms
  fingerprint_conforms image_attr_conforms sctpmap_conforms group_conforms msid_conforms msid_semantic_conforms rid_conforms rtpmap_conforms ssrc_conforms : conf.
Lemma attr_conforms : forall a, conforms (attr_schema h) (sv_attr h a).
Proof.
  destruct a; variant; conf.
  - destruct a; variant; conf.
  - destruct a; variant.
  - destruct sem; variant.
Qed.
Lemma media_line_conforms : forall m, conforms media_line_schema (sv_media_line m).
Proof. intro m. conf_struct; [destruct (ml_media m); variant | destruct (ml_proto m); variant | destruct (ml_formats m); variant; conf]. Qed.
Lemma bandwidth_conforms : forall b, conforms bandwidth_schema (sv_bandwidth b).
Proof. destruct b; variant; conf. Qed.
Lemma connection_conforms : forall c, conforms (connection_schema h) (sv_connection h c).
Proof. intro c. conf_struct. Qed.
Lemma origin_conforms : forall o, conforms (origin_schema h) (sv_origin h o).
Proof. intro o. conf_struct. Qed.
Lemma timing_conforms : forall t, conforms timing_schema (sv_timing t).
Proof. intro t. conf_struct. Qed.
Hint Resolve attr_conforms media_line_conforms bandwidth_conforms connection_conforms origin_conforms timing_conforms : conf.
Lemma media_conforms : forall m, conforms (media_schema h) (sv_media h m).
Proof. intro m. conf_struct. Qed.
Lemma type_conforms : forall t, conforms (type_schema h) (sv_type h t).
Proof. destruct t; variant; conf. Qed.
Hint Resolve media_conforms type_conforms : conf.
Lemma line_conforms : forall l, conforms (line_schema h) (sv_line h l).
Proof. intro l. conf_struct. Qed.
Lemma perr_conforms : forall e, conforms ScError (sv_perr e).
Proof. intros [e l n|e l n|m n]; [apply conforms_line; left; reflexivity | apply conforms_line; right; reflexivity | apply conforms_sequence]. Qed.
Hint Resolve perr_conforms : conf.
Theorem session_conforms : forall s, conforms (session_schema h) (sv_session h s).
Proof. intro s. conf_struct. Qed.
End Human.
Lemma session_clear : forall h, clear (session_schema h) = true.
Proof. intros [|]; vm_compute; reflexivity. Qed.
Lemma line_clear : forall h, clear (line_schema h) = true.
Proof. intros [|]; vm_compute; reflexivity. Qed.

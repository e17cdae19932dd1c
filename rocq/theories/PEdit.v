(** * Lemmas for C58: editing texts *)
From Coq Require Import List NArith ZArith Bool Ascii String Lia.
From Verif Require Import Str Num Net Types Ext Show AttrParse Media Session StrLemmas SpecApi SpecDoc SpecOrder SpecSections SpecEdit PApi PDoc PDoc2 PDoc3 POrder PSections.
Import ListNotations.
Open Scope N_scope.
Open Scope list_scope.
Section WithExt.
Context {E : Ext}.

(** ** Lines, whatever their numbers *)
Definition rd (ls : list str) (ts : list sdp_type) (w : list (option (ierr * str))) : Prop :=
  exists ws, Reads 0 ls ts ws /\ map said ws = w.
Lemma rd_at : forall n ls ts ws, Reads n ls ts ws -> rd ls ts (map said ws).
Proof. intros n ls ts ws R. destruct (Reads_renumber _ _ _ _ R 0%nat) as (ws' & R' & Q). exists ws'. split; [exact R' | symmetry; exact Q]. Qed.
Lemma at_rd : forall n ls ts w, rd ls ts w -> exists ws, Reads n ls ts ws /\ map said ws = w.
Proof. intros n ls ts w (ws & R & <-). destruct (Reads_renumber _ _ _ _ R n) as (ws' & R' & Q). exists ws'. auto. Qed.
Lemma rd_app : forall a b t t' w w', rd a t w -> rd b t' w' -> rd (a ++ b) (t ++ t') (w ++ w').
Proof.
  intros a b t t' w w' A B. destruct A as (ws & R & <-). apply (at_rd (0 + List.length a)) in B. destruct B as (ws' & R' & <-).
  exists (ws ++ ws'). split; [|apply map_app]. apply Reads_app. exists t, t', ws, ws'. auto.
Qed.
Lemma rd_split : forall a b ts w, rd (a ++ b) ts w -> exists t1 t2 w1 w2, rd a t1 w1 /\ rd b t2 w2 /\ ts = t1 ++ t2 /\ w = w1 ++ w2.
Proof.
  intros a b ts w (ws & R & <-). apply Reads_app in R. destruct R as (t1 & t2 & w1 & w2 & R1 & R2 & -> & ->).
  exists t1, t2, (map said w1), (map said w2). split; [exact (rd_at _ _ _ _ R1)|]. split; [exact (rd_at _ _ _ _ R2)|]. split; [reflexivity | apply map_app].
Qed.
Lemma rd_unique : forall ls t w t' w', rd ls t w -> rd ls t' w' -> t = t' /\ w = w'.
Proof.
  intros ls t w t' w' (ws & R & <-) (ws' & R' & <-). split; [exact (Reads_types _ _ _ _ R _ _ _ R') | exact (Reads_warned _ _ _ _ R _ _ _ R')].
Qed.
Lemma rd_nil : rd [] [] [].
Proof. exists []. split; [constructor | reflexivity]. Qed.
Lemma rd_says : forall line t, says line t -> rd [line] [t] [].
Proof. intros line t (B & l & P & <-). exists []. split; [|reflexivity]. apply Reads_line; [exact B | exact P | constructor]. Qed.
Lemma rd_all : forall ls ts, Forall2 says ls ts -> rd ls ts [].
Proof.
  intros ls ts H. induction H as [|line t ls ts H _ IH]; [apply rd_nil|]. apply (rd_app [line] ls [t] ts [] [] (rd_says _ _ H) IH).
Qed.
Lemma rd_one : forall line t w, rd [line] t w -> (exists x, t = [x] /\ w = [] /\ says line x) \/ (t = [] /\ forall x, ~ says line x).
Proof.
  intros line t w (ws & R & <-). inversion R; subst; match goal with H : Reads _ [] _ _ |- _ => inversion H; subst end.
  - right. split; [reflexivity|]. intros x (B & _). contradiction.
  - left. eexists. split; [reflexivity|]. split; [reflexivity|]. split; [assumption|]. eexists. split; [eassumption | reflexivity].
  - right. split; [reflexivity|]. intros x (_ & l & P & _). congruence.
Qed.
Lemma rd_deletes : forall p x x', deletes p x x' -> forall ts w, rd x ts w -> rd x' (filter (fun t => negb (p t)) ts) w.
Proof.
  intros p x x' D. induction D as [|line t x x' S P D IH|line x x' K D IH]; intros ts w R.
  - destruct (rd_unique _ _ _ _ _ rd_nil R) as [<- <-]. apply rd_nil.
  - apply (rd_split [line] x) in R. destruct R as (t1 & t2 & w1 & w2 & R1 & R2 & -> & ->).
    destruct (rd_unique _ _ _ _ _ (rd_says _ _ S) R1) as [<- <-]. cbn [app filter]. rewrite P. cbn [negb]. apply IH, R2.
  - apply (rd_split [line] x) in R. destruct R as (t1 & t2 & w1 & w2 & R1 & R2 & -> & ->). rewrite filter_app.
    apply (rd_app [line] x'); [|apply IH, R2]. destruct (rd_one _ _ _ R1) as [(y & -> & -> & S)|(-> & _)]; [|exact R1].
    cbn [filter]. rewrite (K _ S). exact R1.
Qed.

(** ** Sections *)
Lemma attributes_app : forall a b, attributes (a ++ b) = attributes a ++ attributes b. Proof. intros. apply flat_map_app. Qed.
Lemma bandwidths_app : forall a b, bandwidths (a ++ b) = bandwidths a ++ bandwidths b. Proof. intros. apply flat_map_app. Qed.
Lemma connections_app : forall a b, connections (a ++ b) = connections a ++ connections b. Proof. intros. apply flat_map_app. Qed.
Lemma timings_app : forall a b, timings (a ++ b) = timings a ++ timings b. Proof. intros. apply flat_map_app. Qed.
(** Deleting attributes only. *)
Definition attrs_only (p : sdp_type -> bool) : Prop := forall t, p t = true -> exists a, t = TyAttribute a.
Lemma del_others : forall p ts, attrs_only p -> bandwidths (filter (fun t => negb (p t)) ts) = bandwidths ts /\
  connections (filter (fun t => negb (p t)) ts) = connections ts.
Proof.
  intros p ts A. induction ts as [|t ts [IH1 IH2]]; [split; reflexivity|]. cbn [filter]. destruct (p t) eqn:Q; cbn [negb].
  - destruct (A _ Q) as (a & ->). split; [exact IH1 | exact IH2].
  - unfold bandwidths, connections in *. cbn [flat_map]. rewrite IH1, IH2. split; reflexivity.
Qed.
Lemma del_attrs : forall p ts, attributes (filter (fun t => negb (p t)) ts) = filter (fun a => negb (p (TyAttribute a))) (attributes ts).
Proof.
  intros p ts. induction ts as [|t ts IH]; [reflexivity|]. cbn [filter]. destruct t; try (destruct (p _); cbn [negb]; exact IH).
  unfold attributes. cbn [flat_map app]. cbn [filter]. destruct (p (TyAttribute a)); cbn [negb]; [exact IH|]. cbn [flat_map app]. f_equal. exact IH.
Qed.
Lemma filter_comm : forall {A} (f g : A -> bool) l, filter f (filter g l) = filter g (filter f l).
Proof.
  intros A f g l. induction l as [|x l IH]; [reflexivity|]. cbn [filter].
  destruct (g x) eqn:G, (f x) eqn:F; cbn [filter]; rewrite ?G, ?F, IH; reflexivity.
Qed.
Definition msec (x : draft_section) (sec : section) (w : list (option (ierr * str))) : Prop :=
  fst x = fst sec /\ rd (snd x) (snd sec) w /\ section_ok sec.
Lemma ok_deleted : forall p l ts, section_ok (l, ts) -> section_ok (l, filter (fun t => negb (p t)) ts).
Proof.
  intros p l ts [F C]. cbn [snd] in *. split; cbn [snd].
  - apply Forall_forall. intros t I. apply filter_In in I. destruct I as [I _]. rewrite Forall_forall in F. exact (F _ I).
  - enough (H : (List.length (connections (filter (fun t => negb (p t)) ts)) <= List.length (connections ts))%nat) by lia.
    clear F C. induction ts as [|t ts IH]; [apply le_n|]. cbn [filter]. change (t :: ts) with ([t] ++ ts). rewrite connections_app, app_length.
    destruct (p t); cbn [negb]; [lia|]. change (t :: filter (fun t => negb (p t)) ts) with ([t] ++ filter (fun t => negb (p t)) ts).
    rewrite connections_app, app_length. lia.
Qed.
Lemma not_dtls : forall a, In (sdp_name a) media_names -> not_named "dtls-message" a = true.
Proof.
  intros a H. unfold not_named, named. destruct (String.eqb (sdp_name a) "dtls-message") eqn:Q; [|reflexivity].
  apply String.eqb_eq in Q. rewrite Q in H. cbn in H. repeat (destruct H as [H|H]; [discriminate H|]). destruct H.
Qed.
Lemma ok_attr : forall l ts a, section_ok (l, ts) -> In (sdp_name a) media_names -> section_ok (l, ts ++ [TyAttribute a]).
Proof.
  intros l ts a [F C] H. split; cbn [snd] in *.
  - apply Forall_app. split; [exact F|]. constructor; [left; exact H | constructor].
  - rewrite connections_app, app_nil_r. exact C.
Qed.
Lemma media_attr : forall l ts a, In (sdp_name a) media_names ->
  section_media (l, ts ++ [TyAttribute a]) = with_attributes (m_attribute (section_media (l, ts)) ++ [a]) (section_media (l, ts)).
Proof.
  intros l ts a H. unfold section_media, with_attributes. cbn [fst snd m_media m_connection m_bandwidth m_attribute].
  rewrite connections_app, bandwidths_app, attributes_app, filter_app. cbn [connections bandwidths attributes flat_map filter app].
  rewrite !app_nil_r, (not_dtls a H). reflexivity.
Qed.
Lemma media_deleted : forall p l ts, attrs_only p ->
  section_media (l, filter (fun t => negb (p t)) ts) =
  with_attributes (filter (fun a => negb (p (TyAttribute a))) (m_attribute (section_media (l, ts)))) (section_media (l, ts)).
Proof.
  intros p l ts A. unfold section_media, with_attributes. cbn [fst snd m_media m_connection m_bandwidth m_attribute].
  destruct (del_others p ts A) as [-> ->]. rewrite del_attrs, filter_comm. reflexivity.
Qed.
Lemma named_only : forall n, attrs_only (attribute_named n).
Proof. intros n t H. destruct t; try discriminate H. eexists. reflexivity. Qed.
Lemma codec_only : attrs_only a_codec.
Proof. intros t H. destruct t; try discriminate H. eexists. reflexivity. Qed.
Lemma not_allowed : forall a, ~ In (sdp_name a) media_names -> allowed_at_media_level a = false.
Proof. intros a H. destruct (allowed_at_media_level a) eqn:Q; [|reflexivity]. apply allowed_media in Q. contradiction. Qed.
Lemma added : forall a m, In (sdp_name a) media_names -> fst (add_attribute a m) = with_attributes (m_attribute m ++ [a]) m.
Proof. intros a m H. apply allowed_media in H. unfold add_attribute. rewrite H. reflexivity. Qed.
Lemma not_added : forall a m, ~ In (sdp_name a) media_names -> fst (add_attribute a m) = m.
Proof. intros a m H. apply not_allowed in H. unfold add_attribute. rewrite H. reflexivity. Qed.
Lemma removed : forall t m, remove_attribute t m = with_attributes (filter (fun a => negb (attribute_named (type_name t) (TyAttribute a))) (m_attribute m)) m.
Proof. intros t m. unfold remove_attribute. f_equal. apply filter_ext_eq. intro a. rewrite type_named. reflexivity. Qed.
Lemma step_deleted : forall p x x' l ts w, rd x ts w -> section_ok (l, ts) -> deletes p x x' -> msec (l, x') (l, filter (fun t => negb (p t)) ts) w.
Proof. intros p x x' l ts w R O D. split; [reflexivity|]. split; [exact (rd_deletes _ _ _ D _ _ R) | apply ok_deleted, O]. Qed.
Lemma step_attr : forall l x ts w a line, rd x ts w -> section_ok (l, ts) -> In (sdp_name a) media_names -> says line (TyAttribute a) ->
  msec (l, x ++ [line]) (l, ts ++ [TyAttribute a]) w.
Proof.
  intros l x ts w a line R O H S. split; [reflexivity|]. split; [|apply ok_attr; assumption].
  cbn [snd]. rewrite <- (app_nil_r w). apply (rd_app _ _ _ _ _ _ R (rd_says _ _ S)).
Qed.
Lemma with_attributes_twice : forall a b m, with_attributes a (with_attributes b m) = with_attributes a m. Proof. reflexivity. Qed.
Lemma ok_line : forall l l' ts, section_ok (l, ts) -> section_ok (l', ts). Proof. intros l l' ts H. exact H. Qed.
Lemma set_step : forall a x x', media_edit (OpSetAttribute a) x x' -> forall sec w, msec x sec w ->
  exists sec', msec x' sec' w /\ section_media sec' = run_media_op (OpSetAttribute a) (section_media sec).
Proof.
  intros a x x' H [l ts] w (Ql & R & O). inversion H; subst; cbn [fst snd] in Ql, R; subst.
  - eexists. split; [apply step_attr; [|apply ok_deleted, O| |]; try eassumption; match goal with D : deletes _ _ _ |- _ => exact (rd_deletes _ _ _ D _ _ R) end|].
    cbn [run_media_op]. unfold set_attribute. rewrite added, removed, name_of_type, media_attr, media_deleted by (assumption || apply named_only). reflexivity.
  - eexists. split; [match goal with D : deletes _ _ _ |- _ => exact (step_deleted _ _ _ _ _ _ R O D) end|].
    cbn [run_media_op]. unfold set_attribute. rewrite not_added, removed, name_of_type, media_deleted by (assumption || apply named_only). reflexivity.
Qed.
Lemma set_shape : forall a m, In (sdp_name a) media_names -> set_attribute a m =
  (with_attributes (filter (fun b => negb (attribute_named (sdp_name a) (TyAttribute b))) (m_attribute m) ++ [a]) m, Ok tt).
Proof. intros a m H. unfold set_attribute. rewrite removed, name_of_type. apply allowed_media in H. unfold add_attribute. rewrite H. reflexivity. Qed.
Lemma channel_attr_ok : forall l port streams, In (sdp_name (datachannel_attr l port streams)) media_names.
Proof. intros l port streams. unfold datachannel_attr. destruct (by_name _); vm_compute; tauto. Qed.
Lemma size_ok : forall n, In (sdp_name (AMaxMessageSize n)) media_names. Proof. intro n. vm_compute. tauto. Qed.
Lemma channel_first : forall name port streams size m, add_datachannel name port streams size m =
  then_media (set_attribute (datachannel_attr (m_media m) port streams) (with_formats (if by_name (ml_proto (m_media m)) then Strings [name] else Integers [port]) m))
    (fun m => then_media (if 0 <? size then set_attribute (AMaxMessageSize size) m else (m, Ok tt)) (fun m => (with_media_value Application m, Ok tt))).
Proof. intros name port streams size m. unfold add_datachannel, datachannel_attr, get_proto. destruct (ml_proto (m_media m)); reflexivity. Qed.
Lemma channel0 : forall l ts name port streams,
  with_media_line (line_datachannel l name port) (run_media_op (OpSetAttribute (datachannel_attr l port streams)) (section_media (l, ts))) =
  fst (add_datachannel name port streams 0 (section_media (l, ts))).
Proof.
  intros l ts name port streams. rewrite channel_first. cbn [run_media_op]. change (m_media (section_media (l, ts))) with l.
  rewrite !set_shape by apply channel_attr_ok. reflexivity.
Qed.
Lemma channel1 : forall l ts name port streams size, 0 < size ->
  with_media_line (line_datachannel l name port) (run_media_op (OpSetAttribute (AMaxMessageSize size)) (run_media_op (OpSetAttribute (datachannel_attr l port streams)) (section_media (l, ts)))) =
  fst (add_datachannel name port streams size (section_media (l, ts))).
Proof.
  intros l ts name port streams size H. rewrite channel_first. cbn [run_media_op]. change (m_media (section_media (l, ts))) with l.
  rewrite !(set_shape (datachannel_attr l port streams)) by apply channel_attr_ok. cbn [fst then_media].
  apply N.ltb_lt in H. rewrite H. rewrite !(set_shape (AMaxMessageSize size)) by apply size_ok. reflexivity.
Qed.
Lemma media_step : forall op x x', media_edit op x x' -> forall sec w, msec x sec w ->
  exists sec', msec x' sec' w /\ section_media sec' = run_media_op op (section_media sec).
Proof.
  intros op x x' H sec w M. destruct op; try (exact (set_step _ _ _ H _ _ M)); destruct sec as [l ts]; destruct M as (Ql & R & O);
    inversion H; subst; cbn [fst snd] in Ql, R; subst.
  - exists (line_port l p, ts). split; [split; [reflexivity|]; split; [exact R | exact O] | reflexivity].
  - exists (l, ts ++ [TyBandwidth b]). split.
    + split; [reflexivity|]. split; [cbn [snd]; rewrite <- (app_nil_r w); apply (rd_app _ _ _ _ _ _ R), rd_says; assumption|].
      destruct O as [F C]. split; cbn [snd] in *; [apply Forall_app; split; [exact F | constructor; [exact I | constructor]]|].
      rewrite connections_app, app_nil_r. exact C.
    + cbn [run_media_op]. unfold section_media, add_bandwidth. cbn [fst snd m_media m_connection m_bandwidth m_attribute].
      rewrite connections_app, bandwidths_app, attributes_app, !app_nil_r. reflexivity.
  - exists (l, filter (fun t => negb (a_connection t)) ts ++ [TyConnection c]).
    assert (K : connections (filter (fun t => negb (a_connection t)) ts) = [] /\
                bandwidths (filter (fun t => negb (a_connection t)) ts) = bandwidths ts /\
                attributes (filter (fun t => negb (a_connection t)) ts) = attributes ts).
    { clear. induction ts as [|t ts (I1 & I2 & I3)]; [repeat split|]. unfold connections, bandwidths, attributes in *.
      destruct t; cbn [filter a_connection negb flat_map app]; rewrite ?I1, ?I2, ?I3; repeat split. }
    destruct K as (K1 & K2 & K3). split.
    + match goal with D : deletes _ _ _ |- _ => destruct (step_deleted _ _ _ _ _ _ R O D) as (_ & R1 & O1) end. split; [reflexivity|].
      split; [cbn [snd]; rewrite <- (app_nil_r w); apply (rd_app _ _ _ _ _ _ R1), rd_says; assumption|].
      destruct O1 as [F C]. split; cbn [snd] in *; [apply Forall_app; split; [exact F | constructor; [exact I | constructor]]|].
      rewrite connections_app, K1. apply le_n.
    + cbn [run_media_op]. unfold section_media, set_media_connection. cbn [fst snd m_media m_connection m_bandwidth m_attribute].
      rewrite connections_app, bandwidths_app, attributes_app, K1, K2, K3, !app_nil_r. reflexivity.
  - eexists. split; [match goal with I : In _ media_names, D : says _ _ |- _ => exact (step_attr _ _ _ _ _ _ R O I D) end|]. cbn [run_media_op]. rewrite added, media_attr by assumption. reflexivity.
  - exists (l, ts). split; [split; [reflexivity|]; split; [exact R | exact O]|]. cbn [run_media_op]. rewrite not_added by assumption. reflexivity.
  - eexists. split; [match goal with D : deletes _ _ _ |- _ => exact (step_deleted _ _ _ _ _ _ R O D) end|]. cbn [run_media_op]. rewrite removed, media_deleted by apply named_only. reflexivity.
  - exists (line_no_codec l, filter (fun t => negb (a_codec t)) ts). split.
    + match goal with D : deletes _ _ _ |- _ => destruct (step_deleted _ _ _ _ _ _ R O D) as (_ & R1 & O1) end. split; [reflexivity|]. split; [exact R1 | exact O1].
    + change (section_media (line_no_codec l, filter (fun t => negb (a_codec t)) ts)) with (with_media_line (line_no_codec l) (section_media (l, filter (fun t => negb (a_codec t)) ts))).
      rewrite media_deleted by apply codec_only. cbn [run_media_op]. unfold remove_codecs, with_formats, with_attributes, with_media_line, get_formats. cbn [m_media m_connection m_bandwidth m_attribute fst snd section_media].
      f_equal. apply filter_ext_eq. intros [ ]; reflexivity.
  - exists (line_codec l (rm_payload_type r), ts ++ [TyAttribute (ARtpmap r)]). split.
    + assert (HR : In (sdp_name (ARtpmap r)) media_names) by (vm_compute; tauto). match goal with D : says _ _ |- _ => destruct (step_attr _ _ _ _ _ _ R O HR D) as (_ & R1 & O1) end. split; [reflexivity|]. split; [exact R1 | exact O1].
    + assert (HR : In (sdp_name (ARtpmap r)) media_names) by (vm_compute; tauto).
      change (section_media (line_codec l (rm_payload_type r), ts ++ [TyAttribute (ARtpmap r)])) with
        (with_media_line (line_codec l (rm_payload_type r)) (section_media (l, ts ++ [TyAttribute (ARtpmap r)]))).
      rewrite media_attr by exact HR. cbn [run_media_op]. unfold add_codec. rewrite added by exact HR. reflexivity.
  - destruct (set_step _ _ _ ltac:(eassumption) (l, ts) w ltac:(split; [reflexivity|]; split; [exact R | exact O])) as ([l1 ts1] & (L1 & R1 & O1) & Q1).
    cbn [fst snd] in L1, R1. subst l1. exists (line_datachannel l name port, ts1). split; [split; [reflexivity|]; split; [exact R1 | exact O1]|].
    change (section_media (line_datachannel l name port, ts1)) with (with_media_line (line_datachannel l name port) (section_media (l, ts1))).
    rewrite Q1. cbn [run_media_op]. apply channel0.
  - match goal with A : media_edit (OpSetAttribute (datachannel_attr _ _ _)) _ _, B : media_edit (OpSetAttribute (AMaxMessageSize _)) _ _ |- _ =>
      destruct (set_step _ _ _ A (l, ts) w ltac:(split; [reflexivity|]; split; [exact R | exact O])) as ([l1 ts1] & (L1 & R1 & O1) & Q1);
      cbn [fst snd] in L1, R1; subst l1;
      destruct (set_step _ _ _ B (l, ts1) w ltac:(split; [reflexivity|]; split; [exact R1 | exact O1])) as ([l2 ts2] & (L2 & R2 & O2) & Q2) end.
    cbn [fst snd] in L2, R2. subst l2. exists (line_datachannel l name port, ts2). split; [split; [reflexivity|]; split; [exact R2 | exact O2]|].
    change (section_media (line_datachannel l name port, ts2)) with (with_media_line (line_datachannel l name port) (section_media (l, ts2))).
    rewrite Q2, Q1. cbn [run_media_op]. apply channel1. assumption.
Qed.

(** ** Documents *)
Definition fits (d : draft) (s : session) : Prop :=
  exists v o name hd w sw, rd (fst d) (TyVersion v :: TyOrigin o :: TySession name :: hd) w /\ Forall session_item hd /\
    Forall2 (fun x p => msec x (fst p) (snd p)) (snd d) sw /\
    with_warnings s [] = assembled v o name hd (map fst sw) /\
    map said (s_warnings s) = w ++ List.concat (map snd sw).
Lemma rd_grown : forall h x y z hd w line t, rd h (x :: y :: z :: hd) w -> says line t -> rd (h ++ [line]) (x :: y :: z :: hd ++ [t]) w.
Proof. intros h x y z hd w line t R S. rewrite <- (app_nil_r w). apply (rd_app _ _ _ _ _ _ R (rd_says _ _ S)). Qed.
Lemma item_grown : forall hd t, Forall session_item hd -> session_item t -> Forall session_item (hd ++ [t]).
Proof. intros hd t F S. apply Forall_app. split; [exact F | constructor; [exact S | constructor]]. Qed.
Lemma last_app : forall {A} (l : list A) x, last_of (l ++ [x]) = Some x.
Proof. intros A l x. unfold last_of. rewrite rev_app_distr. reflexivity. Qed.
Definition add_item (t : sdp_type) (s : session) : session :=
  match t with
  | TyConnection c => session_set_connection c s
  | TyBandwidth b => session_add_bandwidth b s
  | TyTiming x => session_set_timing x s
  | TyAttribute a => session_with_attributes (s_attribute s ++ [a]) s
  | _ => s
  end.
Lemma assembled_add : forall v o name hd secs t, session_item t -> assembled v o name (hd ++ [t]) secs = add_item t (assembled v o name hd secs).
Proof.
  intros v o name hd secs t S. unfold assembled. rewrite connections_app, bandwidths_app, timings_app, attributes_app.
  destruct t; try contradiction S; cbn [connections bandwidths timings attributes flat_map]; rewrite ?app_nil_r, ?last_app; reflexivity.
Qed.
Lemma fits_add : forall h d line t s, says line t -> session_item t -> fits (h, d) s -> fits (h ++ [line], d) (add_item t s).
Proof.
  intros h d line t s S I (v & o & name & hd & w & sw & R & F & M & A & W).
  exists v, o, name, (hd ++ [t]), w, sw. split; [apply rd_grown; assumption|]. split; [apply item_grown; assumption|]. split; [exact M|].
  split; [|rewrite <- W; destruct t; reflexivity]. rewrite assembled_add, <- A by exact I. destruct t; reflexivity.
Qed.
Lemma session_not_allowed : forall a s, ~ In (sdp_name a) session_names -> fst (session_add_attribute a s) = s.
Proof.
  intros a s H. unfold session_add_attribute. destruct (allowed_at_session_level a) eqn:Q; [apply allowed_session in Q; contradiction | reflexivity].
Qed.
Lemma session_allowed : forall a s, In (sdp_name a) session_names -> session_add_attribute a s = (add_item (TyAttribute a) s, Ok tt).
Proof. intros a s H. apply allowed_session in H. unfold session_add_attribute. rewrite H. reflexivity. Qed.
Lemma fits_lines : forall l h d ls s, Forall session_item (map l_type l) -> Forall2 says ls (map l_type l) -> fits (h, d) s ->
  fits (h ++ ls, d) (fst (parse_session_vector s l)).
Proof.
  induction l as [|x l IH]; intros h d ls s I S F; cbn [map] in I, S; inversion S; subst.
  - rewrite app_nil_r. exact F.
  - assert (I0 := Forall_inv I). apply Forall_inv_tail in I. cbn [parse_session_vector].
    assert (K : fits (h ++ [x0], d) (add_item (l_type x) s)) by (apply fits_add; assumption).
    replace (h ++ x0 :: l0) with ((h ++ [x0]) ++ l0) by (rewrite <- app_assoc; reflexivity).
    destruct (l_type x); try contradiction I0; try (apply IH; assumption).
    cbn [session_item] in I0. rewrite (session_allowed _ _ I0). apply IH; assumption.
Qed.
Lemma assembled_more : forall v o name hd secs new, assembled v o name hd (secs ++ new) = session_extend_media (map section_media new) (assembled v o name hd secs).
Proof. intros. unfold assembled, session_extend_media. cbn [s_version s_origin s_session s_connection s_bandwidth s_timing s_attribute s_media s_warnings]. rewrite map_app. reflexivity. Qed.
Lemma fits_extend : forall h d xs ms s, Forall2 section_says xs ms -> fits (h, d) s -> fits (h, d ++ xs) (session_extend_media ms s).
Proof.
  intros h d xs ms s S (v & o & name & hd & w & sw & R & F & M & A & W).
  assert (K : exists new, Forall2 (fun x (p : section * list (option (ierr * str))) => msec x (fst p) (snd p)) xs new /\ map section_media (map fst new) = ms /\ List.concat (map snd new) = []).
  { clear -S. induction S as [|x m xs ms (ts & X & O & ->) _ (new & K1 & K2 & K3)]; [exists []; repeat split; constructor|].
    exists (((fst x, ts), []) :: new). split; [|split; cbn; congruence]. constructor; [|exact K1]. split; [reflexivity|]. split; [apply rd_all; exact X | exact O]. }
  destruct K as (new & K1 & K2 & K3).
  exists v, o, name, hd, w, (sw ++ new). split; [exact R|]. split; [exact F|]. split; [apply Forall2_app; assumption|].
  split; [|rewrite map_app, concat_app, K3, app_nil_r; exact W]. rewrite map_app, assembled_more, K2, <- A. reflexivity.
Qed.
Lemma on_nth_mid : forall {A} (f : A -> A) pre x post, on_nth (List.length pre) f (pre ++ x :: post) = pre ++ f x :: post.
Proof. intros A f pre x post. induction pre as [|y pre IH]; [reflexivity|]. cbn [List.length app on_nth]. rewrite IH. reflexivity. Qed.
Lemma on_nth_over : forall {A} (f : A -> A) l i, (List.length l <= i)%nat -> on_nth i f l = l.
Proof. intros A f l. induction l as [|x l IH]; intros [|i] H; cbn in *; try reflexivity; try lia. rewrite IH by lia. reflexivity. Qed.
Lemma Forall2_len : forall {A B} (P : A -> B -> Prop) l m, Forall2 P l m -> List.length l = List.length m.
Proof. intros A B P l m H. induction H; cbn; congruence. Qed.
Lemma fits_media : forall d s, fits d s -> List.length (s_media s) = List.length (snd d).
Proof.
  intros d s (v & o & name & hd & w & sw & R & F & M & A & W). apply (f_equal s_media) in A. cbn in A. rewrite A, !map_length. symmetry. exact (Forall2_len _ _ _ M).
Qed.
Lemma edit_step : forall op d d', edit op d d' -> forall s, fits d s -> fits d' (run_session_op op s).
Proof.
  intros op d d' H s F. destruct H; cbn [run_session_op].
  - apply (fits_add h d line (TyConnection c)); auto. exact I.
  - apply (fits_add h d line (TyBandwidth b)); auto. exact I.
  - apply (fits_add h d line (TyTiming t)); auto. exact I.
  - rewrite session_allowed by assumption. apply fits_add; assumption.
  - rewrite session_not_allowed by assumption. exact F.
  - apply fits_lines; assumption.
  - apply fits_extend; assumption.
  - unfold add_media. pose proof (added a (media_new (new_line mt port proto)) H) as K.
    assert (OK : snd (add_attribute a (media_new (new_line mt port proto))) = Ok tt) by (unfold add_attribute; apply allowed_media in H; rewrite H; reflexivity).
    change {| ml_media := mt; ml_port := port; ml_port_count := 1; ml_proto := proto; ml_formats := Integers [] |} with (new_line mt port proto).
    destruct (add_attribute a (media_new (new_line mt port proto))) as [m r]. cbn [fst snd] in K, OK. subst m r. cbn [fst].
    apply fits_extend; [|exact F]. constructor; [|constructor].
    exists [TyAttribute a; TyConnection {| conn_address := addr; conn_ttl := None; conn_amount := None |}].
    split; [constructor; [assumption|]; constructor; [assumption | constructor]|]. split.
    + split; [constructor; [left; exact H|]; constructor; [exact I | constructor] | apply le_n].
    + unfold section_media. cbn [fst snd connections bandwidths attributes flat_map app filter hd_error]. rewrite (not_dtls a H). reflexivity.
  - unfold add_media. pose proof (not_allowed a H) as K. unfold add_attribute. rewrite K. exact F.
  - subst i. destruct F as (v & o & name & hd & w & sw & R & F & M & A & W). cbn [snd] in M.
    apply Forall2_app_inv_l in M. destruct M as (sw1 & sw2 & M1 & M2 & ->). inversion M2 as [|? [sec wx] ? sw3 Mx M3]; subst. cbn [fst snd] in Mx.
    destruct (media_step _ _ _ H0 _ _ Mx) as (sec' & Mx' & Q).
    exists v, o, name, hd, w, (sw1 ++ (sec', wx) :: sw3). split; [exact R|]. split; [exact F|].
    split; [apply Forall2_app; [exact M1 | constructor; [exact Mx' | exact M3]]|].
    split; [|rewrite map_app, concat_app in *; exact W].
    rewrite map_app in *. cbn [map fst] in *.
    assert (L : List.length pre = List.length (map section_media (map fst sw1))) by (rewrite !map_length; exact (Forall2_len _ _ _ M1)).
    assert (SM : s_media s = map section_media (map fst sw1) ++ section_media sec :: map section_media (map fst sw3)).
    { apply (f_equal s_media) in A. cbn in A. rewrite A, map_app. reflexivity. }
    rewrite SM, L, on_nth_mid, <- Q.
    assert (Y : with_warnings s [] = with_session_media (assembled v o name hd (map fst sw1 ++ sec :: map fst sw3)) (s_media s)) by (rewrite SM, A; unfold assembled, with_session_media; cbn [s_version s_origin s_session s_connection s_bandwidth s_timing s_attribute s_media s_warnings]; rewrite map_app; reflexivity).
    apply (f_equal (fun u => with_session_media u (map section_media (map fst sw1) ++ section_media sec' :: map section_media (map fst sw3)))) in A.
    unfold with_session_media, with_warnings, assembled in *. cbn [s_version s_origin s_session s_connection s_bandwidth s_timing s_attribute s_media s_warnings] in *.
    rewrite A. rewrite map_app. reflexivity.
  - rewrite on_nth_over; [|rewrite (fits_media _ _ F); exact H]. destruct s. exact F.
Qed.
Lemma edits_fit : forall ops d d', edits ops d d' -> forall s, fits d s -> fits d' (fold_left (fun s op => run_session_op op s) ops s).
Proof. intros ops d d' H. induction H as [|op ops d1 d2 d3 H _ IH]; intros s F; [exact F|]. cbn [fold_left]. apply IH. exact (edit_step _ _ _ H _ F). Qed.

(** ** Texts *)
Notation free := (Forall (fun t => ~ is_media t)).
Lemma rd_free : forall ls ts w, Forall (fun y => ~ line_is_media y) ls -> rd ls ts w -> free ts.
Proof. intros ls ts w F (ws & R & _). exact (Reads_not_media _ _ _ _ F R). Qed.
Definition reads_as (x : draft_section) (p : section * list (option (ierr * str))) : Prop :=
  fst x = fst (fst p) /\ rd (snd x) (snd (fst p)) (snd p).
Lemma sections_rd : forall d rest, sections_written d rest -> forall ts w, rd rest ts w ->
  exists sw, ts = flat_map section_lines (map fst sw) /\ w = List.concat (map snd sw) /\ Forall2 reads_as d sw /\ Forall (fun p : section * list (option (ierr * str)) => free (snd (fst p))) sw.
Proof.
  intros d rest H. induction H as [|line l body secs rest S B _ IH]; intros ts w R.
  - destruct (rd_unique _ _ _ _ _ rd_nil R) as [<- <-]. exists []. repeat split; constructor.
  - apply (rd_split [line] (body ++ rest)) in R. destruct R as (t1 & t2 & w1 & w2 & R1 & R2 & -> & ->).
    destruct (rd_unique _ _ _ _ _ (rd_says _ _ S) R1) as [<- <-]. apply rd_split in R2. destruct R2 as (t3 & t4 & w3 & w4 & R3 & R4 & -> & ->).
    destruct (IH _ _ R4) as (sw & -> & -> & K & L). exists (((l, t3), w3) :: sw).
    split; [reflexivity|]. split; [reflexivity|]. split; [constructor; [split; [reflexivity | exact R3] | exact K]|].
    constructor; [exact (rd_free _ _ _ B R3) | exact L].
Qed.
Lemma rd_sections : forall d rest, sections_written d rest -> forall sw, Forall2 reads_as d sw ->
  rd rest (flat_map section_lines (map fst sw)) (List.concat (map snd sw)).
Proof.
  intros d rest H. induction H as [|line l body secs rest S B _ IH]; intros sw K; inversion K as [|? [[l' ts] w] ? sw' [Q R] K']; subst; [apply rd_nil|].
  cbn [fst snd] in Q, R. subst l'. cbn [map flat_map List.concat fst snd]. apply (rd_app [line] (body ++ rest) [TyMedia l] _ [] _ (rd_says _ _ S)).
  apply rd_app; [exact R | apply IH, K'].
Qed.
Lemma head_is_free : forall v o name hd, Forall session_item hd -> free (TyVersion v :: TyOrigin o :: TySession name :: hd).
Proof.
  intros v o name hd F. constructor; [intros [m Q]; discriminate Q|]. constructor; [intros [m Q]; discriminate Q|].
  constructor; [intros [m Q]; discriminate Q|]. exact (head_free _ F).
Qed.
Lemma text_fits : forall sdp d b s, written sdp d -> parse_sdp sdp b = Ok s -> fits d s.
Proof.
  intros sdp d b s (rest & L & H & S) P. apply document in P. destruct P as (_ & ts & ws & R & W & _ & _ & A & _).
  apply (Assembles_warnings _ _ []) in A. apply Assembles_iff in A; [|reflexivity]. destruct A as (v & o & name & hd & secs & -> & F & O & Q).
  rewrite L in R. assert (R' := rd_at _ _ _ _ R). apply rd_split in R'. destruct R' as (t1 & t2 & w1 & w2 & R1 & R2 & Qt & Qw).
  destruct (sections_rd _ _ S _ _ R2) as (sw & -> & -> & K & Fr).
  change (TyVersion v :: TyOrigin o :: TySession name :: hd ++ flat_map section_lines secs) with ((TyVersion v :: TyOrigin o :: TySession name :: hd) ++ flat_map section_lines secs) in Qt.
  apply split_unique in Qt; [|apply head_is_free; exact F | exact (rd_free _ _ _ H R1) | exact (secs_free _ O) | rewrite Forall_map; exact Fr].
  destruct Qt as [<- Qs]. subst secs. exists v, o, name, hd, w1, sw. split; [exact R1|]. split; [exact F|].
  split; [|split; [exact Q | rewrite W; exact Qw]].
  clear -K O. induction K as [|x p d1 sw1 [Q1 R1] _ IH]; [constructor|]. cbn [map] in O. constructor; [|apply IH; exact (Forall_inv_tail O)].
  split; [exact Q1|]. split; [exact R1 | exact (Forall_inv O)].
Qed.
Lemma fits_reads : forall sdp d s, written sdp d -> fits d s -> exists v o name hd secs,
  rd (lines sdp) (TyVersion v :: TyOrigin o :: TySession name :: hd ++ flat_map section_lines secs) (map said (s_warnings s)) /\
  Forall session_item hd /\ Forall section_ok secs /\ with_warnings s [] = assembled v o name hd secs.
Proof.
  intros sdp d s (rest & L & H & S) (v & o & name & hd & w & sw & R & F & M & A & W).
  exists v, o, name, hd, (map fst sw). split.
  - rewrite L, W. apply (rd_app _ _ _ _ _ _ R), (rd_sections _ _ S).
    clear -M. induction M as [|x p d1 sw1 (Q1 & R1 & _) _ IH]; constructor; [split; [exact Q1 | exact R1] | exact IH].
  - split; [exact F|]. split; [|exact A]. clear -M. induction M as [|x p d1 sw1 (_ & _ & O1) _ IH]; constructor; [exact O1 | exact IH].
Qed.
Lemma no_warnings : forall ws, map said ws = [] <-> ws = []. Proof. intros [|w ws]; split; intro H; try reflexivity; discriminate H. Qed.
Lemma fits_text : forall sdp d b s, written sdp d -> 51 <= byte_len sdp -> fits d s -> (b = true -> s_warnings s = []) ->
  (forall s', parse_sdp sdp b = Ok s' -> structural s /\ agree s' s) /\
  (structural s -> exists s', parse_sdp sdp b = Ok s').
Proof.
  intros sdp d b s Wr B Fi WS. split.
  - intros s' P. assert (F' := text_fits _ _ _ _ Wr P). apply document in P. destruct P as (_ & _ & _ & _ & _ & _ & _ & _ & St).
    destruct (fits_reads _ _ _ Wr Fi) as (v & o & name & hd & secs & R & F & O & A).
    destruct (fits_reads _ _ _ Wr F') as (v' & o' & name' & hd' & secs' & R' & F1 & O' & A').
    destruct (rd_unique _ _ _ _ _ R R') as [Qt Qw].
    change (TyVersion v :: TyOrigin o :: TySession name :: hd ++ flat_map section_lines secs) with ((TyVersion v :: TyOrigin o :: TySession name :: hd) ++ flat_map section_lines secs) in Qt.
    change (TyVersion v' :: TyOrigin o' :: TySession name' :: hd' ++ flat_map section_lines secs') with ((TyVersion v' :: TyOrigin o' :: TySession name' :: hd') ++ flat_map section_lines secs') in Qt.
    apply split_unique in Qt; [|apply head_is_free; exact F | apply head_is_free; exact F1 | exact (secs_free _ O) | exact (secs_free _ O')].
    destruct Qt as [Qh ->]. injection Qh as -> -> -> ->.
    assert (AG : with_warnings s' [] = with_warnings s []) by (rewrite A, A'; reflexivity).
    split; [|split; [exact AG | symmetry; exact Qw]].
    apply (structural_warnings s []). rewrite <- AG. apply structural_warnings. exact St.
  - intro St. destruct (fits_reads _ _ _ Wr Fi) as (v & o & name & hd & secs & (ws & R & Qw) & F & O & A).
    exists (with_warnings s ws). apply document. split; [exact B|]. eexists. exists ws. split; [exact R|]. split; [reflexivity|].
    split; [intro T; apply no_warnings; rewrite Qw, (WS T); reflexivity|]. split.
    + assert (T := rule_timing _ St). destruct T as (x & T). apply (f_equal s_timing) in A. cbn in A. rewrite T in A.
      destruct hd; [discriminate A|]. cbn [List.length app]. lia.
    + split; [|apply structural_warnings; exact St]. apply (proj2 (Assembles_warnings _ s ws)), (proj1 (Assembles_warnings _ s [])). apply Assembles_iff; [reflexivity|].
      exists v, o, name, hd, secs. auto.
Qed.
Lemma run_warnings : forall op s, s_warnings (run_session_op op s) = s_warnings s.
Proof.
  intros op s. destruct op; try reflexivity; cbn [run_session_op].
  - unfold session_add_attribute. destruct (negb _); reflexivity.
  - revert s. induction l as [|x l IH]; intro s; [reflexivity|]. cbn [parse_session_vector]. destruct (l_type x); try reflexivity; try (rewrite IH; reflexivity).
    unfold session_add_attribute. destruct (negb _); [reflexivity|]. rewrite IH. reflexivity.
  - unfold add_media. destruct (add_attribute _ _) as [m []]; reflexivity.
Qed.
Lemma runs_warnings : forall ops s, s_warnings (fold_left (fun s op => run_session_op op s) ops s) = s_warnings s.
Proof. induction ops as [|op ops IH]; intro s; [reflexivity|]. cbn [fold_left]. rewrite IH. apply run_warnings. Qed.
Lemma strict_silent : forall sdp s, parse_sdp sdp true = Ok s -> s_warnings s = [].
Proof. intros sdp s P. apply document in P. destruct P as (_ & ts & ws & _ & W & T & _). rewrite W. apply T. reflexivity. Qed.
Theorem edited : forall sdp b s d ops d' sdp', parse_sdp sdp b = Ok s -> written sdp d -> edits ops d d' -> written sdp' d' -> 51 <= byte_len sdp' ->
  (forall s', parse_sdp sdp' b = Ok s' -> structural (fold_left (fun s op => run_session_op op s) ops s) /\ agree s' (fold_left (fun s op => run_session_op op s) ops s)) /\
  (structural (fold_left (fun s op => run_session_op op s) ops s) -> exists s', parse_sdp sdp' b = Ok s').
Proof.
  intros sdp b s d ops d' sdp' P Wr Ed Wr' B. apply (fits_text sdp' d' b); [exact Wr' | exact B | exact (edits_fit _ _ _ Ed _ (text_fits _ _ _ _ Wr P))|].
  intros ->. rewrite runs_warnings. exact (strict_silent _ _ P).
Qed.
Theorem started : forall h v o name b ops d' sdp', start h v o name -> edits ops (h, []) d' -> written sdp' d' -> 51 <= byte_len sdp' ->
  (forall s', parse_sdp sdp' b = Ok s' -> structural (fold_left (fun s op => run_session_op op s) ops (session_new v o name)) /\
     s' = fold_left (fun s op => run_session_op op s) ops (session_new v o name)) /\
  (structural (fold_left (fun s op => run_session_op op s) ops (session_new v o name)) -> exists s', parse_sdp sdp' b = Ok s').
Proof.
  intros h v o name b ops d' sdp' St Ed Wr B.
  assert (F : fits (h, []) (session_new v o name)).
  { exists v, o, name, [], [], []. split; [apply rd_all; exact St|]. repeat split; constructor. }
  destruct (fits_text sdp' d' b _ Wr B (edits_fit _ _ _ Ed _ F) ltac:(intros _; rewrite runs_warnings; reflexivity)) as [K1 K2].
  split; [|exact K2]. intros s' P. destruct (K1 s' P) as [S1 [A1 A2]]. split; [exact S1|].
  rewrite runs_warnings in A2. apply no_warnings in A2.
  assert (W := runs_warnings ops (session_new v o name)). destruct s', (fold_left _ _ _). cbn in A2, W. subst. unfold with_warnings in A1. cbn in A1. exact A1.
Qed.

(** ** Every list of lines has just one form without the lines of a kind *)
Lemma says_dec : forall line, (exists t, says line t) \/ forall t, ~ says line t.
Proof.
  intro line. destruct (blank_dec line) as [B|B]; [right; intros t [K _]; exact (K B)|].
  destruct (parse_sdp_line line 0) as [l|e|] eqn:P; [left; exists (l_type l); split; [exact B | exists l; split; [exact P | reflexivity]]| |];
    right; intros t [_ (l & Q & _)]; rewrite P in Q; discriminate Q.
Qed.
Lemma says_one : forall line t t', says line t -> says line t' -> t = t'.
Proof. intros line t t' [_ (l & P & <-)] [_ (l' & P' & <-)]. rewrite P in P'. injection P' as ->. reflexivity. Qed.
Lemma deletes_once : forall p x, exists x', deletes p x x' /\ forall y, deletes p x y -> y = x'.
Proof.
  intros p x. induction x as [|line x (x' & D & U)]; [exists []; split; [constructor | intros y H; inversion H; reflexivity]|].
  destruct (says_dec line) as [[t T]|T].
  - destruct (p t) eqn:P.
    + exists x'. split; [exact (deletes_line _ _ _ _ _ T P D)|]. intros y H. inversion H as [|? t1 ? ? T1 P1 D1|? ? ? K D1]; subst; [exact (U _ D1)|].
      rewrite (K _ T) in P. discriminate P.
    + exists (line :: x'). split; [apply deletes_not; [intros t1 T1; rewrite <- (says_one _ _ _ T T1); exact P | exact D]|].
      intros y H. inversion H as [|? t1 ? ? T1 P1 D1|? ? ? K D1]; subst; [rewrite (says_one _ _ _ T1 T), P in P1; discriminate P1|].
      f_equal. exact (U _ D1).
  - exists (line :: x'). split; [apply deletes_not; [intros t1 T1; destruct (T _ T1) | exact D]|].
    intros y H. inversion H as [|? t1 ? ? T1 P1 D1|? ? ? K D1]; subst; [destruct (T _ T1)|]. f_equal. exact (U _ D1).
Qed.
End WithExt.

(** * Proofs: printed sessions are read back (C10) *)
From Coq Require Import List NArith ZArith Lia Bool Ascii String.
From Coq Require Import ZifyBool ZifyNat ZifyN.
From Verif Require Import Str Num Net Types Ext Show Address AttrParse Media Session SpecApi SpecDoc SpecVal SpecItems SpecPrint.
From Verif Require Import StrLemmas NumLemmas NetLemmas PPanic PDoc PDoc2 PDoc3 PDoc4 PVal PVal2 PVal8 PVal9 PVal10 PVal11.
From Verif Require Import PPrint PPrint2 PPrint3 PPrint4 PPrint5 PPrint6 PPrint7 PPrint8 PPrint9.
Import ListNotations.
Open Scope N_scope.
Open Scope list_scope.

(** The items in the order in which they are printed. *)
Definition printed_body (m : media) : list sdp_type :=
  map TyBandwidth (m_bandwidth m) ++ map TyConnection (of_option (m_connection m)) ++ map TyAttribute (m_attribute m).
Definition printed_section (m : media) : section := (m_media m, printed_body m).
Definition printed_head (s : session) : list sdp_type :=
  map TyTiming (of_option (s_timing s)) ++ map TyBandwidth (s_bandwidth s) ++
  map TyConnection (of_option (s_connection s)) ++ map TyAttribute (s_attribute s).
Definition printed_name (s : session) : str := match s_session s with Some t => t | None => [32] end.
Definition printed_items (s : session) : list sdp_type :=
  TyVersion (s_version s) :: TyOrigin (s_origin s) :: TySession (printed_name s) ::
  printed_head s ++ flat_map section_lines (map printed_section (s_media s)).

Lemma flat_map_nil : forall {A B} (f : A -> list B) l, (forall x, In x l -> f x = []) -> flat_map f l = [].
Proof. intros A B f l H. induction l as [|x l IH]; [reflexivity|]. cbn. rewrite (H x) by now left. apply IH. intros y Hy. apply H. now right. Qed.
Lemma select_map : forall {A} (c : A -> sdp_type) (f : sdp_type -> list A) l, (forall x, f (c x) = [x]) -> flat_map f (map c l) = l.
Proof. intros A c f l H. induction l as [|x l IH]; [reflexivity|]. cbn [map flat_map]. rewrite H, IH. reflexivity. Qed.
Lemma select_other : forall {A B} (c : A -> sdp_type) (f : sdp_type -> list B) l, (forall x, f (c x) = []) -> flat_map f (map c l) = [].
Proof. intros A B c f l H. apply flat_map_nil. intros y Hy. apply in_map_iff in Hy. destruct Hy as (x & <- & _). apply H. Qed.
Ltac select := rewrite ?flat_map_app; repeat first [rewrite select_other by reflexivity | rewrite select_map by reflexivity];
  rewrite ?app_nil_r; cbn [app]; try reflexivity.
Lemma in_printed : forall s ty, In ty (printed_items s) -> In ty (session_items s) \/ ty = TySession (printed_name s).
Proof.
  intros s ty H. unfold printed_items in H. unfold session_items. destruct H as [<-|[<-|[<-|H]]]; [left; now left | left; right; now left | now right|].
  left. right. right. apply in_app_or in H. destruct H as [H|H].
  - unfold printed_head in H. repeat rewrite in_app_iff in *. tauto.
  - repeat rewrite in_app_iff. right. right. right. right. apply in_flat_map in H. destruct H as (sec & Hs & H).
    apply in_map_iff in Hs. destruct Hs as (m & <- & Hm). apply in_flat_map. exists m. split; [exact Hm|].
    unfold section_lines, printed_section, printed_body in H. cbn [fst snd] in H. unfold media_items.
    destruct H as [<-|H]; [now left|]. right. repeat rewrite in_app_iff in *. tauto.
Qed.

Lemma ends_blank_last : forall t, ends_blank t -> is_ws (List.last t 0) = true.
Proof. intros t (c & x & -> & H). rewrite last_last. exact H. Qed.

Section WithExt.
Context {E : Ext}.
Context (X : ext_ok E).

(** ** The lines *)
Lemma show_attr_nonempty : forall a, attr_range a -> attr_wf a -> ~ attr_lossy a -> show_attr a <> [].
Proof.
  intros a R W L K. destruct (attribute_prints X a R W L) as (t & C & D). rewrite K in C. apply core_nil in C. subst t.
  destruct (name_word a) as (N1 & _ & _). destruct D as [(_ & M & _)|(name & rest & Cu & _)].
  - apply means_iff in M; [|destruct a; reflexivity]. cbn in M. destruct N1 as [N1 _]. congruence.
  - exact (cut_nil _ _ _ Cu).
Qed.
Lemma attribute_lines_map : forall l, (forall a, In a l -> show_attr a <> []) ->
  attribute_lines l = map (fun a => printed_line (TyAttribute a)) l.
Proof.
  intros l H. unfold attribute_lines. destruct l as [|a l]; [reflexivity|].
  assert (F : filter (fun t : str => match t with [] => false | _ => true end) (map show_attr (a :: l)) = map show_attr (a :: l)).
  { apply filter_all, forallb_forall. intros t Ht. apply in_map_iff in Ht. destruct Ht as (x & <- & Hx).
    pose proof (H x Hx). destruct (show_attr x); [congruence | reflexivity]. }
  rewrite F. cbn [map]. rewrite map_map. reflexivity.
Qed.
Lemma session_lines_map : forall s, (forall a, In (TyAttribute a) (session_items s) -> show_attr a <> []) ->
  session_lines s = map printed_line (printed_items s).
Proof.
  intros s H. unfold session_lines, printed_items, printed_head. cbn [map]. repeat f_equal.
  rewrite !map_app, !map_map. rewrite <- !app_assoc. repeat f_equal.
  - apply attribute_lines_map. intros a Ha. apply H. unfold session_items. right. right. repeat rewrite in_app_iff.
    right. right. right. left. apply in_map, Ha.
  - assert (K : forall m, In m (s_media s) -> media_lines m = map printed_line (section_lines (printed_section m))).
    { intros m Hm. unfold media_lines, section_lines, printed_section, printed_body. cbn [fst snd map]. f_equal.
      rewrite !map_app, !map_map. repeat f_equal. apply attribute_lines_map. intros a Ha. apply H.
      unfold session_items. right. right. repeat rewrite in_app_iff. right. right. right. right. apply in_flat_map.
      exists m. split; [exact Hm|]. unfold media_items. right. repeat rewrite in_app_iff. right. right. apply in_map, Ha. }
    revert K. generalize (s_media s). intro l. induction l as [|m l IH]; intro K; [reflexivity|]. cbn [flat_map map].
    rewrite map_app, <- K by now left. f_equal. apply IH. intros x Hx. apply K. now right.
Qed.
Lemma lines_mean_printed : forall l, Forall (fun ty => line_means (printed_line ty) ty) l -> lines_mean (map printed_line l) l.
Proof.
  intros l F. induction F as [|ty l H F IH]; [constructor|]. cbn [map]. apply lines_mean_line; [|exact H|exact IH].
  intro B. inversion B as [|c r Bc Br]. destruct ty; discriminate.
Qed.

(** ** The session *)
Lemma names_assemble : forall s, option_wf (fun t => starts_solid t /\ ends_solid t) (s_session s) ->
  Forall (fun a => In (sdp_name a) session_names) (s_attribute s) ->
  Forall (fun m => Forall (fun a => In (sdp_name a) media_names) (m_attribute m)) (s_media s) ->
  Assembles (printed_items s) (with_warnings s []).
Proof.
  intros s N A M. exists (printed_name s), (printed_head s), (map printed_section (s_media s)).
  cbn [with_warnings s_version s_origin s_session s_bandwidth s_attribute s_timing s_connection s_media].
  split; [reflexivity|]. split.
  { unfold session_name, printed_name. destruct (s_session s) as [t|]; [|repeat constructor].
    destruct N as [N1 N2]. exists [], []. rewrite app_nil_r. split; [reflexivity|]. split; [constructor|]. split; [constructor|].
    split; assumption. }
  split.
  { unfold printed_head. repeat (apply Forall_app; split); apply Forall_map_in; intros; try exact I. exact (Forall_in _ _ _ A H). }
  split.
  { apply Forall_map_in. intros m Hm. split.
    - cbn [printed_section snd]. unfold printed_body. repeat (apply Forall_app; split); apply Forall_map_in; intros; try exact I.
      left. exact (Forall_in _ _ _ (Forall_in _ _ _ M Hm) H).
    - cbn [printed_section snd]. unfold printed_body, connections. select. destruct (m_connection m); cbn; lia. }
  split; [unfold printed_head, bandwidths; select|].
  split; [unfold printed_head, attributes; select|].
  split; [unfold printed_head, timings; select; destruct (s_timing s); reflexivity|].
  split; [unfold printed_head, connections; select; destruct (s_connection s); reflexivity|].
  rewrite map_map. rewrite <- (map_id (s_media s)) at 1. apply map_ext_in. intros m Hm.
  unfold section_media, printed_section. cbn [fst snd]. unfold printed_body.
  assert (K1 : connections (map TyBandwidth (m_bandwidth m) ++ map TyConnection (of_option (m_connection m)) ++ map TyAttribute (m_attribute m)) =
               of_option (m_connection m)) by (unfold connections; select).
  assert (K2 : bandwidths (map TyBandwidth (m_bandwidth m) ++ map TyConnection (of_option (m_connection m)) ++ map TyAttribute (m_attribute m)) =
               m_bandwidth m) by (unfold bandwidths; select).
  assert (K3 : attributes (map TyBandwidth (m_bandwidth m) ++ map TyConnection (of_option (m_connection m)) ++ map TyAttribute (m_attribute m)) =
               m_attribute m) by (unfold attributes; select).
  rewrite K1, K2, K3. rewrite filter_all.
  - destruct m as [ml c b l]. cbn. destruct c; reflexivity.
  - apply forallb_forall. intros a Ha. pose proof (Forall_in _ _ _ (Forall_in _ _ _ M Hm) Ha) as K. cbn beta in K.
    cbv [SpecApi.not_named named]. destruct (String.eqb_spec (sdp_name a) "dtls-message") as [Q|Q]; [|reflexivity].
    rewrite Q in K. exfalso. revert K. vm_compute. intuition discriminate.
Qed.
Lemma printed_assembles : forall s, session_wf s -> Assembles (printed_items s) (with_warnings s []).
Proof. intros s (_ & _ & N & A & M). apply names_assemble; assumption. Qed.
Lemma structural_warnings : forall s w, structural s -> structural (with_warnings s w).
Proof. intros s w [A B C D]. constructor; assumption. Qed.
Lemma printed_session_parses : forall s b, session_wf s -> structural s -> ~ session_lossy s ->
  51 <= byte_len (show_session s) -> (Z.of_nat (List.length (show_session s)) < 2147483648)%Z ->
  parse_sdp (show_session s) b = Ok (with_warnings s []).
Proof.
  intros s b W St L B Sh. pose proof W as (Wi & Wc & _).
  assert (Li : forall ty, In ty (session_items s) -> ~ item_lossy ty) by (intros ty H K; apply L, Exists_exists; eauto).
  destruct (session_lines_ok X s Wc) as (_ & T & _).
  assert (Lm : session_lines s = map printed_line (printed_items s)).
  { apply session_lines_map. intros a Ha. destruct (Forall_in _ _ _ Wi Ha) as [R Wa]. apply show_attr_nonempty; [exact R | exact Wa | exact (Li _ Ha)]. }
  apply document. split; [exact B|]. exists (printed_items s), []. split; [|split; [reflexivity|]].
  - apply mean_reads.
    + rewrite T, Lm. apply lines_mean_printed. apply Forall_forall. intros ty Hty. destruct (in_printed _ _ Hty) as [H| ->].
      * apply (item_prints X); [exact (Forall_in _ _ _ Wi H) | exact (Li _ H)].
      * apply (item_prints X); [split; exact I | intros []].
    + apply Forall_forall. intros x Hx. apply lines_length in Hx. unfold short. lia.
  - split; [reflexivity|]. split; [|split; [apply printed_assembles, W | apply structural_warnings, St]].
    destruct (rule_timing _ St) as (t & Et). unfold printed_items, printed_head. rewrite Et. cbn. lia.
Qed.
Lemma parsed_session_wf : forall sdp b s, parse_sdp sdp b = Ok s -> session_wf s /\ structural s.
Proof.
  intros sdp b s H. pose proof H as D. apply document in D. destruct D as (_ & ts & ws & _ & _ & _ & _ & A & S). split; [|exact S].
  split.
  { apply Forall_forall. intros ty Hty. destruct (item_line _ _ _ H _ Hty) as (i & line & l & (_ & _ & P) & <-).
    exact (line_means_wf X _ _ _ P). }
  split; [exact (parsed_clean X _ _ _ H)|].
  destruct A as (name & head & secs & _ & N & F & G & _ & Ha & _ & _ & Hm). split; [|split].
  - destruct (s_session s) as [t|]; [|exact I]. destruct N as (w1 & w2 & _ & _ & _ & N1 & N2). split; assumption.
  - rewrite Ha. apply Forall_forall. intros a Ia. apply in_flat_map in Ia. destruct Ia as (t & It & K).
    destruct t; try contradiction. destruct K as [K|[]]. subst. exact (Forall_in _ _ _ F It).
  - rewrite Hm. apply Forall_map_in. intros sec Hs. destruct (Forall_in _ _ _ G Hs) as [G1 _].
    apply Forall_forall. intros a Ia. cbn [section_media m_attribute] in Ia. apply filter_In in Ia. destruct Ia as [Ia Nd].
    apply in_flat_map in Ia. destruct Ia as (t & It & K). destruct t; try contradiction. destruct K as [K|[]]. subst.
    destruct (Forall_in _ _ _ G1 It) as [Q|Q]; [exact Q|]. cbv [SpecApi.not_named named] in Nd. rewrite Q in Nd. discriminate.
Qed.
Lemma session_round_trip : forall sdp b s b', parse_sdp sdp b = Ok s -> ~ session_lossy s ->
  51 <= byte_len (show_session s) -> (Z.of_nat (List.length (show_session s)) < 2147483648)%Z ->
  parse_sdp (show_session s) b' = Ok (with_warnings s []).
Proof.
  intros sdp b s b' H L B Sh. destruct (parsed_session_wf _ _ _ H) as [W S]. apply printed_session_parses; assumption.
Qed.
Lemma line_round_trip : forall line n l n', parse_sdp_line line n = Ok l -> ~ item_lossy (l_type l) ->
  countable (l_type l) (List.length (printed_line (l_type l))) ->
  exists l', parse_sdp_line (printed_line (l_type l)) n' = Ok l' /\
    l_type l' = l_type l /\ printed_line (l_type l') = printed_line (l_type l).
Proof.
  intros line n l n' H L C. exists {| l_number := n'; l_type := l_type l; l_text := printed_line (l_type l) |}.
  split; [|split; reflexivity]. apply (printed_line_parses X); [exact (line_means_wf X _ _ _ H) | exact L | exact C].
Qed.
Lemma printed_attribute_parses : forall a n, attr_range a -> attr_wf a -> ~ attr_lossy a ->
  (forall i, a = AImageAttr i -> (Z.of_nat (List.length (show_attr a)) < 2147483646)%Z) ->
  parse_sdp_line (lit "a=" ++ show_attr a) n =
  Ok {| l_number := n; l_type := TyAttribute a; l_text := lit "a=" ++ show_attr a |}.
Proof.
  intros a n R W L C. apply (printed_line_parses X (TyAttribute a)); [split; assumption | exact L|].
  unfold countable. destruct a; try exact I. specialize (C _ eq_refl). unfold printed_line, item_text. cbn [List.length].
  unfold short. lia.
Qed.
End WithExt.

(** * Proofs: what was built with the API can be printed and parsed (C52) *)
From Coq Require Import List NArith ZArith Lia Bool Ascii String.
From Coq Require Import ZifyBool ZifyNat ZifyN.
From Verif Require Import Str Num Net Types Ext Show Address AttrParse Media Session.
From Verif Require Import SpecApi SpecDoc SpecVal SpecItems SpecPrint SpecBuild.
From Verif Require Import StrLemmas PApi PPrint10.
Import ListNotations.
Open Scope N_scope.
Open Scope list_scope.

Section WithExt.
Context {E : Ext}.

Definition attrs_inv (l : list attr) : Prop := Forall (fun a => solid (TyAttribute a)) l.
Record media_inv (m : media) : Prop := {
  mi_conn : Forall (fun c => solid (TyConnection c)) (of_option (m_connection m));
  mi_bw : Forall (fun b => solid (TyBandwidth b)) (m_bandwidth m);
  mi_attrs : attrs_inv (m_attribute m)
}.
Lemma inv_filter : forall f l, attrs_inv l -> attrs_inv (filter f l).
Proof. intros f l H. apply Forall_forall. intros x Hx. apply filter_In in Hx. unfold attrs_inv in H. rewrite Forall_forall in H. apply H. tauto. Qed.
Lemma inv_snoc : forall l a, attrs_inv l -> solid (TyAttribute a) -> attrs_inv (l ++ [a]).
Proof. intros l a H K. apply Forall_app. split; [exact H|]. constructor; [exact K|constructor]. Qed.
Lemma inv_attrs : forall m l, media_inv m -> attrs_inv l -> media_inv (with_attributes l m).
Proof. intros m l [H1 H2 _] H. split; assumption. Qed.
Lemma add_attribute_inv : forall a m, solid (TyAttribute a) -> media_inv m -> media_inv (fst (add_attribute a m)).
Proof.
  intros a m K H. unfold add_attribute. destruct (negb _); [exact H|]. cbn [fst].
  apply inv_attrs; [exact H|]. apply inv_snoc; [exact (mi_attrs _ H)|exact K].
Qed.
Lemma run_media_inv : forall op m, media_op_solid op -> media_inv m -> media_inv (run_media_op op m).
Proof.
  intros op m O H. pose proof H as [H1 H2 H3]. destruct op; cbn [run_media_op media_op_solid] in *.
  - split; assumption.
  - split; [exact H1| |exact H3]. apply Forall_app. split; [exact H2|]. constructor; [exact O|constructor].
  - split; [|exact H2|exact H3]. cbn. constructor; [exact O|constructor].
  - exact (add_attribute_inv _ _ O H).
  - unfold set_attribute. apply (add_attribute_inv _ _ O). unfold remove_attribute. apply inv_attrs; [exact H|]. apply inv_filter, H3.
  - apply inv_attrs; [exact H|]. apply inv_filter, H3.
  - unfold remove_codecs. apply inv_attrs; [split; assumption|]. apply inv_filter. exact H3.
  - unfold add_codec. apply (add_attribute_inv _ _ O). split; assumption.
  - destruct O as (O1 & O2 & O3). rewrite add_datachannel_eq. cbv zeta. cbn [fst].
    assert (S1 : solid (TyAttribute (ASctpPort port))) by (split; [split; [exact O1|exact I]|split; [exact (fun f => f)|constructor]]).
    assert (S2 : solid (TyAttribute (ASctpmap {| sm_port := port; sm_channels := streams |})))
      by (split; [split; [split; [exact O1|exact O2]|exact I]|split; [exact (fun f => f)|constructor]]).
    assert (S3 : solid (TyAttribute (AMaxMessageSize msg_size))) by (split; [split; [exact O3|exact I]|split; [exact (fun f => f)|constructor]]).
    match goal with |- media_inv (with_media_value _ ?x) => assert (K : media_inv x); [|destruct K; split; assumption] end.
    match goal with |- media_inv (if _ then with_attributes _ ?x else _) => assert (K : media_inv x); [|set (y := x) in *] end.
    + destruct (get_proto m); (apply inv_attrs; [split; assumption|]); apply inv_snoc; try assumption; apply inv_filter; exact H3.
    + clearbody y. destruct (0 <? msg_size); [|exact K]. apply inv_attrs; [exact K|]. apply inv_snoc; [|exact S3].
      apply inv_filter. exact (mi_attrs _ K).
Qed.
Lemma media_built_inv : forall m, media_built_well m -> media_inv m.
Proof.
  intros m (l & ops & O & ->).
  assert (G : forall m, media_inv m -> media_inv (fold_left (fun m op => run_media_op op m) ops m)).
  { clear l. induction O as [|op ops Hop _ IH]; intros m H; [exact H|]. cbn [fold_left]. apply IH. exact (run_media_inv _ _ Hop H). }
  apply G. split; constructor.
Qed.

Record session_inv (s : session) : Prop := {
  si_version : s_version s = 0;
  si_origin : solid (TyOrigin (s_origin s));
  si_name : option_wf (fun t => starts_solid t /\ ends_solid t) (s_session s);
  si_name_lf : match s_session s with Some t => ~ In 10 t | None => True end;
  si_timing : Forall (fun c => solid (TyTiming c)) (of_option (s_timing s));
  si_conn : Forall (fun c => solid (TyConnection c)) (of_option (s_connection s));
  si_bw : Forall (fun b => solid (TyBandwidth b)) (s_bandwidth s);
  si_attrs : attrs_inv (s_attribute s);
  si_media : Forall media_inv (s_media s);
  si_warnings : s_warnings s = []
}.
Lemma session_attribute_inv : forall a s, solid (TyAttribute a) -> session_inv s -> session_inv (fst (session_add_attribute a s)).
Proof.
  intros a s K H. unfold session_add_attribute. destruct (negb _); [exact H|]. cbn [fst].
  destruct H. split; try assumption. apply inv_snoc; assumption.
Qed.
Lemma set_timing_inv : forall t s, solid (TyTiming t) -> session_inv s -> session_inv (session_set_timing t s).
Proof. intros t s K []. split; try assumption. cbn. constructor; [exact K|constructor]. Qed.
Lemma set_connection_inv : forall t s, solid (TyConnection t) -> session_inv s -> session_inv (session_set_connection t s).
Proof. intros t s K []. split; try assumption. cbn. constructor; [exact K|constructor]. Qed.
Lemma add_bandwidth_inv : forall t s, solid (TyBandwidth t) -> session_inv s -> session_inv (session_add_bandwidth t s).
Proof. intros t s K []. split; try assumption. cbn. apply Forall_app. split; [assumption|]. constructor; [exact K|constructor]. Qed.
Lemma session_vector_inv : forall l s, Forall (fun x => solid (l_type x)) l -> session_inv s ->
  session_inv (fst (parse_session_vector s l)).
Proof.
  induction l as [|x l IH]; intros s O H; [exact H|]. inversion O as [|? ? O1 O2]; subst. cbn [parse_session_vector].
  destruct (l_type x); try exact H; try (apply (IH _ O2)).
  - pose proof (session_attribute_inv _ _ O1 H) as K. destruct (session_add_attribute a s) as [s' []]; cbn [fst] in *; [exact (IH _ O2 K)|exact K|exact K].
  - exact (add_bandwidth_inv _ _ O1 H).
  - exact (set_connection_inv _ _ O1 H).
  - exact (set_timing_inv _ _ O1 H).
Qed.
Lemma run_session_inv : forall op s, session_op_solid op -> session_inv s -> session_inv (run_session_op op s).
Proof.
  intros op s O H. destruct op; cbn [run_session_op session_op_solid] in *.
  - exact (set_connection_inv _ _ O H).
  - exact (add_bandwidth_inv _ _ O H).
  - exact (set_timing_inv _ _ O H).
  - exact (session_attribute_inv _ _ O H).
  - exact (session_vector_inv _ _ O H).
  - destruct H. split; try assumption. cbn. apply Forall_app. split; [assumption|]. revert O. apply Forall_impl. exact media_built_inv.
  - destruct O as (O1 & O2). unfold add_media. unfold add_attribute. destruct (negb _); [exact H|]. cbn [fst].
    destruct H. split; try assumption. cbn. apply Forall_app. split; [assumption|]. constructor; [|constructor].
    split; cbn; [constructor; [exact O2|constructor]|constructor|]. constructor; [exact O1|constructor].
  - destruct H. split; try assumption. cbn. apply on_nth_Forall; [|assumption]. intro m. exact (run_media_inv _ _ O).
Qed.
Lemma name_inv : forall name, ~ In 10 name ->
  forall t, (if is_empty (trim name) then None else Some (trim name)) = Some t ->
  starts_solid t /\ ends_solid t /\ ~ In 10 t.
Proof.
  intros name N t H. destruct (is_empty (trim name)) eqn:Q; [discriminate|]. injection H as <-.
  destruct (trim_decompose name) as (w1 & w2 & D & _).
  assert (K : trim name <> []) by (intro K; rewrite K in Q; discriminate).
  split; [|split].
  - unfold starts_solid. unfold trim in *. destruct (trim_start_cases name) as [Z|(c & r & Z & Z')].
    + rewrite Z in K. exfalso. apply K. reflexivity.
    + destruct (trim_end_suffix (trim_start name)) as (w & W0 & _).
      assert (W : c :: r = trim_end (trim_start name) ++ w) by (rewrite <- Z; exact W0). clear W0.
      destruct (trim_end (trim_start name)) as [|c' r'] eqn:T; [congruence|]. rewrite <- app_comm_cons in W. injection W as <- W.
      exists c, r'. split; [reflexivity|exact Z'].
  - unfold ends_solid. unfold trim in *. destruct (trim_end_cases (trim_start name)) as [Z|Z]; [congruence|].
    destruct Z as (s' & c & Z & Z'). exists c, s'. split; assumption.
  - intro I1. apply N. rewrite D. apply in_or_app. right. apply in_or_app. left. exact I1.
Qed.
Lemma built_inv : forall s, built_well s -> session_inv s /\ levels_ok s.
Proof.
  intros s (o & name & ops & Ho & N & O & ->). split.
  - assert (G : forall s, session_inv s -> session_inv (fold_left (fun s op => run_session_op op s) ops s)).
    { induction O as [|op ops Hop _ IH]; intros s H; [exact H|]. cbn [fold_left]. apply IH. exact (run_session_inv _ _ Hop H). }
    apply G. split; cbn [session_new s_version s_origin s_session s_timing s_connection s_bandwidth s_attribute s_media s_warnings of_option];
      first [exact Ho | reflexivity | solve [constructor] | idtac].
    + destruct (if is_empty (trim name) then None else Some (trim name)) as [t|] eqn:Q; [|exact I].
      destruct (name_inv _ N _ Q) as (K1 & K2 & _). split; assumption.
    + destruct (if is_empty (trim name) then None else Some (trim name)) as [t|] eqn:Q; [|exact I].
      exact (proj2 (proj2 (name_inv _ N _ Q))).
  - apply built_session_levels. exists 0, o, name, ops. split; [|reflexivity]. revert O. apply Forall_impl.
    intros op K. destruct op; try exact I. cbn [op_ok session_op_solid] in *. revert K. apply Forall_impl.
    intros m (l' & mops & _ & ->). exists l', mops. reflexivity.
Qed.
Context (X : ext_ok E).
Lemma built_items : forall s, session_inv s -> media_lines_solid s -> Forall solid (session_items s).
Proof.
  intros s H L. unfold session_items. constructor.
  { rewrite (si_version _ H). split; [split; [reflexivity|exact I]|]. split; [exact (fun f => f)|constructor]. }
  constructor; [exact (si_origin _ H)|]. rewrite !Forall_app, !Forall_map.
  split; [exact (si_timing _ H)|]. split; [exact (si_conn _ H)|]. split; [exact (si_bw _ H)|]. split; [exact (si_attrs _ H)|].
  pose proof (si_media _ H) as M. unfold media_lines_solid in L. clear H. revert L.
  induction M as [|m l H M IH]; intro L; [constructor|]. inversion L; subst. cbn [flat_map]. apply Forall_app. split; [|apply IH; assumption].
  unfold media_items. constructor; [assumption|]. rewrite !Forall_app, !Forall_map. destruct H. split; [assumption|]. split; assumption.
Qed.
Lemma built_parses : forall s b, built_well s ->
  (Z.of_nat (List.length (show_session s)) < 2147483648)%Z ->
  (parse_sdp (show_session s) b = Ok s <->
   structural s /\ media_lines_solid s /\ 51 <= byte_len (show_session s)).
Proof.
  intros s b H Sh. destruct (built_inv _ H) as (Inv & Lv). split.
  - intro P. destruct (parsed_session_wf X _ _ _ P) as ((Wi & (Wl & _) & _) & St). split; [exact St|]. split.
    + unfold media_lines_solid. apply Forall_forall. intros m Hm. rewrite Forall_forall in Wi, Wl.
      assert (Ii : In (TyMedia (m_media m)) (session_items s)).
      { unfold session_items. right. right. apply in_or_app. right. apply in_or_app. right. apply in_or_app. right. apply in_or_app. right.
        apply in_flat_map. exists m. split; [exact Hm|]. left. reflexivity. }
      split; [exact (Wi _ Ii)|]. split; [exact (fun f => f)|exact (Wl _ Ii)].
    + apply (PDoc2.document) in P. destruct P as (P & _). exact P.
  - intros (St & L & B). pose proof (built_items _ Inv L) as It.
    assert (W : with_warnings s [] = s) by (pose proof (si_warnings _ Inv) as W; destruct s; cbn in *; rewrite W; reflexivity).
    rewrite <- W at 2. apply (printed_session_parses X); [|exact St| |exact B|exact Sh].
    + split; [revert It; apply Forall_impl; intros ty K; apply K|]. split; [split|].
      * revert It; apply Forall_impl; intros ty K; apply K.
      * exact (si_name_lf _ Inv).
      * split; [exact (si_name _ Inv)|exact Lv].
    + intro K. apply Exists_exists in K. destruct K as (ty & K1 & K2). rewrite Forall_forall in It. apply (It _ K1). exact K2.
Qed.

(** ** Offers *)
Notation run_all := (fold_left (fun s op => run_session_op op s)).
Definition offer_media (o : offer) (l : list rtpmap) : media :=
  {| m_media := {| ml_media := of_kind o; ml_port := of_port o; ml_port_count := 1; ml_proto := of_proto o;
                   ml_formats := Integers (map rm_payload_type l) |};
     m_connection := Some {| conn_address := of_address o; conn_ttl := None; conn_amount := None |};
     m_bandwidth := []; m_attribute := of_direction o :: map ARtpmap l |}.
Lemma on_last : forall A (f : A -> A) l x, on_nth (List.length l) f (l ++ [x]) = l ++ [f x].
Proof. intros A f l x. induction l as [|y l IH]; [reflexivity|]. cbn. rewrite IH. reflexivity. Qed.
Lemma add_codecs : forall o rs l s0 ms,
  run_all (map (fun r => OpOnMedia (List.length ms) (OpAddCodec r)) rs) (with_session_media s0 (ms ++ [offer_media o l])) =
  with_session_media s0 (ms ++ [offer_media o (l ++ rs)]).
Proof.
  intros o rs. induction rs as [|r rs IH]; intros l s0 ms; [rewrite app_nil_r; reflexivity|].
  cbn [map fold_left run_session_op].
  match goal with |- run_all _ ?x = _ => assert (Q : x = with_session_media s0 (ms ++ [offer_media o (l ++ [r])])) end.
  { unfold with_session_media at 1. cbn [s_version s_origin s_session s_connection s_bandwidth s_timing s_attribute s_media s_warnings with_session_media].
    rewrite on_last. unfold with_session_media. apply (f_equal (fun x => Build_session _ _ _ _ _ _ _ (ms ++ [x]) _)).
    cbn [run_media_op]. unfold add_codec. rewrite add_attribute_ok by (apply existsb_name; reflexivity).
    unfold offer_media, with_formats, with_attributes, with_media_line, get_formats.
    cbn [fst m_media m_connection m_bandwidth m_attribute ml_media ml_port ml_port_count ml_proto ml_formats].
    rewrite !map_app. reflexivity. }
  rewrite Q, IH, <- app_assoc. reflexivity.
Qed.
Lemma direction_media : forall o, offer_ok o -> In (sdp_name (of_direction o)) media_names.
Proof.
  intros o H. pose proof (ok_direction _ H) as K. cbn [In] in K. destruct K as [K|[K|[K|[K|[]]]]]; rewrite <- K; apply existsb_name; reflexivity.
Qed.
Lemma offers_run : forall os s, Forall offer_ok os ->
  run_all (all_offers (List.length (s_media s)) os) s =
  with_session_media s (s_media s ++ map (fun o => offer_media o (of_codecs o)) os).
Proof.
  induction os as [|o os IH]; intros s H.
  { cbn. rewrite app_nil_r. destruct s. reflexivity. }
  inversion H as [|? ? H1 H2]; subst. cbn [all_offers]. rewrite fold_left_app. unfold offer_calls. cbn [fold_left].
  assert (Q : run_session_op (OpAddMedia (of_kind o) (of_direction o) (of_port o) (of_proto o) (of_address o)) s =
    with_session_media s (s_media s ++ [offer_media o []])).
  { cbn [run_session_op]. destruct (add_media_spec (of_kind o) (of_direction o) (of_port o) (of_proto o) (of_address o) s) as (K & _).
    rewrite (K (direction_media _ H1)). reflexivity. }
  rewrite Q, add_codecs. cbn [app].
  specialize (IH (with_session_media s (s_media s ++ [offer_media o (of_codecs o)])) H2).
  cbn [s_media with_session_media] in IH. rewrite app_length, Nat.add_comm in IH. cbn [List.length Nat.add] in IH.
  rewrite IH. cbn [map]. unfold with_session_media. cbn [s_version s_origin s_session s_connection s_bandwidth s_timing s_attribute s_media s_warnings].
  rewrite <- app_assoc. reflexivity.
Qed.
Lemma direction_solid : forall o, offer_ok o -> solid (TyAttribute (of_direction o)).
Proof.
  intros o H. pose proof (ok_direction _ H) as K. cbn [In] in K. destruct K as [K|[K|[K|[K|[]]]]]; rewrite <- K;
    (split; [split; exact I|]; split; [exact (fun f => f)|constructor]).
Qed.
Lemma offers_solid : forall os i, Forall offer_ok os -> Forall session_op_solid (all_offers i os).
Proof.
  induction os as [|o os IH]; intros i H; [constructor|]. inversion H as [|? ? H1 H2]; subst. cbn [all_offers].
  apply Forall_app. split; [|exact (IH _ H2)]. constructor.
  - split; [exact (direction_solid _ H1)|exact (ok_address _ H1)].
  - rewrite Forall_map. pose proof (ok_each _ H1) as K. revert K. apply Forall_impl. intros r (K & _). exact K.
Qed.
Lemma rtpmap_attrs : forall o l a, In a (m_attribute (offer_media o l)) -> offer_ok o -> In (sdp_name a) ["sendrecv"; "sendonly"; "recvonly"; "inactive"; "rtpmap"]%string.
Proof.
  intros o l a H O. cbn [offer_media m_attribute] in H. destruct H as [<-|H].
  - pose proof (ok_direction _ O) as K. cbn [In] in K. destruct K as [K|[K|[K|[K|[]]]]]; rewrite <- K; apply existsb_name; reflexivity.
  - apply in_map_iff in H. destruct H as (r & <- & _). apply existsb_name; reflexivity.
Qed.
Lemma offer_rules : forall o l, offer_ok o -> media_rules (offer_media o l).
Proof.
  intros o l O. assert (N : forall a, In a (m_attribute (offer_media o l)) -> forall n, sdp_name a = n ->
    ~ In n ["sendrecv"; "sendonly"; "recvonly"; "inactive"; "rtpmap"]%string -> False).
  { intros a H n <- K. exact (K (rtpmap_attrs _ _ _ H O)). }
  assert (B : forall n, existsb (String.eqb n) ["sendrecv"; "sendonly"; "recvonly"; "inactive"; "rtpmap"]%string = false ->
    ~ In n ["sendrecv"; "sendonly"; "recvonly"; "inactive"; "rtpmap"]%string).
  { intros n Q K. apply existsb_name in K. rewrite K in Q. discriminate. }
  constructor.
  - intros (a & H1 & H2). exfalso. exact (N _ H1 _ H2 (B "rtcp-mux-only"%string eq_refl)).
  - intros r n H. exfalso. exact (N _ H _ eq_refl (B "rid"%string eq_refl)).
  - intros before sc after H. exfalso. refine (N (ASimulcast sc) _ _ eq_refl (B "simulcast"%string eq_refl)). rewrite H. apply in_or_app. right. left. reflexivity.
Qed.
Lemma offers_parse : forall o name t os s b, solid (TyOrigin o) -> ~ In 10 name -> solid (TyTiming t) -> Forall offer_ok os ->
  s = run_all (OpSessionTiming t :: all_offers 0 os) (session_new 0 o name) ->
  51 <= byte_len (show_session s) -> (Z.of_nat (List.length (show_session s)) < 2147483648)%Z ->
  parse_sdp (show_session s) b = Ok s.
Proof.
  intros o name t os s b Ho Hn Ht Hos Es B Sh. apply built_parses; [|exact Sh|].
  - exists o, name, (OpSessionTiming t :: all_offers 0 os). split; [exact Ho|]. split; [exact Hn|]. split; [|exact Es].
    constructor; [exact Ht|]. apply offers_solid. exact Hos.
  - assert (F : s = with_session_media (session_set_timing t (session_new 0 o name)) (map (fun o => offer_media o (of_codecs o)) os)).
    { rewrite Es. cbn [fold_left run_session_op]. exact (offers_run os (session_set_timing t (session_new 0 o name)) Hos). }
    split; [|split; [|exact B]].
    + rewrite F. constructor; cbn [with_session_media s_timing s_connection s_attribute s_media session_set_timing session_new].
      * eexists. reflexivity.
      * right. rewrite Forall_map. apply Forall_forall. intros x _. eexists. reflexivity.
      * intros ((a & [] & _) & _).
      * rewrite Forall_map. revert Hos. apply Forall_impl. intros x Hx. exact (offer_rules _ _ Hx).
    + unfold media_lines_solid. rewrite F. cbn [with_session_media s_media]. rewrite Forall_map. revert Hos. apply Forall_impl.
      intros x Hx. cbn [offer_media m_media]. split; [split|].
      * cbn [item_range ml_port ml_port_count ml_media ml_formats]. split; [exact (ok_port _ Hx)|]. split; [unfold u32; lia|].
        assert (K : map rm_payload_type (of_codecs x) <> [] /\ Forall payload_listed (map rm_payload_type (of_codecs x))).
        { split; [intro Q; apply map_eq_nil in Q; exact (ok_codecs _ Hx Q)|]. rewrite Forall_map. pose proof (ok_each _ Hx) as K.
          revert K. apply Forall_impl. intros r (_ & K). exact K. }
        destruct (ok_kind _ Hx) as [->| ->]; exact K.
      * exact I.
      * split; [exact (fun f => f)|]. unfold no_line_feed. cbn. constructor.
Qed.
End WithExt.

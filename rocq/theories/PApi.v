(** * Proofs about the construction API (C22-C25) *)
From Coq Require Import List NArith Bool Ascii String Lia.
From Verif Require Import Str Num Net Types Ext Show AttrParse Media Session StrLemmas NumLemmas SpecApi.
Import ListNotations.
Open Scope list_scope.

Definition attr_type_dec : forall x y : attr_type, {x = y} + {x <> y}.
Proof. decide equality. Defined.
Definition all_types : list attr_type := [
  TBundleOnly; TCandidate; TDtlsMessage; TEndOfCandidates; TExtmap; TExtmapAllowMixed; TFingerprint; TFmtp; TFrameRate; TGroup; TIceLite; TIceMismatch; TIceOptions; TIcePacing; TIcePwd; TIceUfrag; TIdentity; TImageAttr; TInactive; TLabel; TMaxMessageSize; TMaxPtime; TMid; TMsid; TMsidSemantic; TPtime; TRid; TRecvonly; TRemoteCandidate; TRtpmap; TRtcp; TRtcpfb; TRtcpMux; TRtcpMuxOnly; TRtcpRsize; TSctpmap; TSctpPort; TSendonly; TSendrecv; TSetup; TSimulcast; TSsrc; TSsrcGroup].
Lemma all_types_In : forall t, In t all_types.
Proof. intros t. destruct t; unfold all_types; repeat (first [left; reflexivity | right]). Qed.
Lemma name_of_type : forall a, type_name (attr_type_of a) = sdp_name a.
Proof. destruct a; reflexivity. Qed.
Lemma filter_idem : forall A (f : A -> bool) l, filter f (filter f l) = filter f l.
Proof.
  intros A f l. induction l as [|x l IH]; auto. cbn [filter]. destruct (f x) eqn:K; auto.
  cbn [filter]. rewrite K, IH. auto.
Qed.
Lemma type_named : forall a t, attr_type_eqb (attr_type_of a) t = named (type_name t) a.
Proof.
  intros a t. unfold named. rewrite <- name_of_type. generalize (attr_type_of a). clear a. intros u.
  assert (G : forallb (fun u => forallb (fun t => Bool.eqb (attr_type_eqb u t)
      (String.eqb (type_name u) (type_name t))) all_types) all_types = true) by (vm_compute; reflexivity).
  rewrite forallb_forall in G. specialize (G u (all_types_In u)).
  rewrite forallb_forall in G. specialize (G t (all_types_In t)). apply eqb_prop in G. exact G.
Qed.
Lemma type_of_name : forall a t, attr_type_of a = t <-> sdp_name a = type_name t.
Proof.
  intros a t. rewrite <- name_of_type. split; [congruence|].
  generalize (attr_type_of a). intros u H.
  assert (G : forallb (fun u => forallb (fun t => if String.eqb (type_name u) (type_name t)
      then (if attr_type_dec u t then true else false) else true) all_types) all_types = true) by (vm_compute; reflexivity).
  rewrite forallb_forall in G. specialize (G u (all_types_In u)).
  rewrite forallb_forall in G. specialize (G t (all_types_In t)). rewrite H, String.eqb_refl in G.
  destruct (attr_type_dec u t); [auto|discriminate].
Qed.
Lemma existsb_name : forall n l, existsb (String.eqb n) l = true <-> In n l.
Proof.
  intros n l. rewrite existsb_exists. split.
  - intros [x [H1 H2]]. apply String.eqb_eq in H2. subst. auto.
  - intros H. exists n. split; auto. apply String.eqb_refl.
Qed.
Lemma allowed_media : forall a, allowed_at_media_level a = true <-> In (sdp_name a) media_names.
Proof.
  intros a. rewrite <- existsb_name.
  replace (existsb (String.eqb (sdp_name a)) media_names) with (allowed_at_media_level a); [tauto|].
  destruct a; reflexivity.
Qed.
Lemma allowed_session : forall a, allowed_at_session_level a = true <-> In (sdp_name a) session_names.
Proof.
  intros a. rewrite <- existsb_name.
  replace (existsb (String.eqb (sdp_name a)) session_names) with (allowed_at_session_level a); [tauto|].
  destruct a; reflexivity.
Qed.
Lemma filter_ext_eq : forall A (f g : A -> bool) l, (forall x, f x = g x) -> filter f l = filter g l.
Proof. intros A f g l H. induction l as [|x l IH]; simpl; auto. rewrite H, IH. auto. Qed.
Lemma find_hd_filter : forall A (f : A -> bool) l, find f l = hd_error (filter f l).
Proof. intros A f l. induction l as [|x l IH]; simpl; auto. destruct (f x); auto. Qed.
Lemma named_refl : forall a, named (sdp_name a) a = true.
Proof. intros. apply String.eqb_refl. Qed.
Lemma named_eq : forall n a, named n a = true <-> sdp_name a = n.
Proof. intros. apply String.eqb_eq. Qed.

Section WithExt.
Context {E : Ext}.

Lemma add_attribute_ok : forall a m, In (sdp_name a) media_names ->
  add_attribute a m = (with_attributes (m_attribute m ++ [a]) m, Ok tt).
Proof. intros a m H. unfold add_attribute. apply allowed_media in H. rewrite H. reflexivity. Qed.
Lemma add_attribute_err : forall a m, ~ In (sdp_name a) media_names ->
  exists e, add_attribute a m = (m, Err e).
Proof.
  intros a m H. unfold add_attribute. destruct (allowed_at_media_level a) eqn:K.
  - apply allowed_media in K. tauto.
  - eexists. reflexivity.
Qed.
Lemma with_attributes_id : forall m l, l = m_attribute m -> with_attributes l m = m.
Proof. intros [] l H. simpl in H. subst. reflexivity. Qed.
Lemma remove_attribute_spec : forall t m,
  remove_attribute t m = with_attributes (filter (not_named (type_name t)) (m_attribute m)) m.
Proof.
  intros t m. unfold remove_attribute. f_equal. apply filter_ext_eq.
  intros a. unfold not_named. rewrite type_named. reflexivity.
Qed.

Definition media_ok (m : media) : Prop := Forall (fun a => In (sdp_name a) media_names) (m_attribute m).
Lemma media_ok_filter : forall f m, media_ok m -> media_ok (with_attributes (filter f (m_attribute m)) m).
Proof.
  intros f m H. unfold media_ok in *. simpl. apply Forall_forall. intros x Hx.
  apply filter_In in Hx. rewrite Forall_forall in H. apply H. tauto.
Qed.
Lemma add_attribute_media_ok : forall a m, media_ok m -> media_ok (fst (add_attribute a m)).
Proof.
  intros a m H. destruct (in_dec string_dec (sdp_name a) media_names) as [Y|N].
  - rewrite add_attribute_ok by auto. unfold media_ok. simpl. apply Forall_app. split; auto.
  - destruct (add_attribute_err a m N) as [e He]. rewrite He. auto.
Qed.
Lemma remove_attribute_media_ok : forall t m, media_ok m -> media_ok (remove_attribute t m).
Proof. intros t m H. apply media_ok_filter. auto. Qed.
Lemma set_attribute_media_ok : forall a m, media_ok m -> media_ok (fst (set_attribute a m)).
Proof. intros a m H. apply add_attribute_media_ok, remove_attribute_media_ok. auto. Qed.
Lemma with_formats_media_ok : forall f m, media_ok m -> media_ok (with_formats f m).
Proof. intros f m H. exact H. Qed.

Lemma add_datachannel_eq : forall name port streams size m,
  add_datachannel name port streams size m =
  let m1 := match get_proto m with
            | UdpDtlsSctp | TcpDtlsSctp =>
                with_attributes (filter (not_named "sctp-port") (m_attribute m) ++ [ASctpPort port])
                  (with_formats (Strings [name]) m)
            | _ => with_attributes (filter (not_named "sctpmap") (m_attribute m) ++
                                    [ASctpmap {| sm_port := port; sm_channels := streams |}])
                  (with_formats (Integers [port]) m)
            end in
  let m2 := if (0 <? size)%N
            then with_attributes (filter (not_named "max-message-size") (m_attribute m1) ++
                                  [AMaxMessageSize size]) m1
            else m1 in
  (with_media_value Application m2, Ok tt).
Proof.
  intros name port streams size m. unfold add_datachannel.
  assert (S1 : forall a m, In (sdp_name a) media_names -> set_attribute a m =
     (with_attributes (filter (not_named (sdp_name a)) (m_attribute m) ++ [a]) m, Ok tt)).
  { clear. intros a m H. unfold set_attribute. rewrite add_attribute_ok by auto.
    rewrite remove_attribute_spec, name_of_type. reflexivity. }
  assert (N1 : forall p, In (sdp_name (ASctpPort p)) media_names) by (intros; apply existsb_name; reflexivity).
  assert (N2 : forall p, In (sdp_name (ASctpmap p)) media_names) by (intros; apply existsb_name; reflexivity).
  assert (N3 : forall p, In (sdp_name (AMaxMessageSize p)) media_names) by (intros; apply existsb_name; reflexivity).
  destruct (get_proto m); rewrite S1 by auto; cbn [then_media];
    destruct (0 <? size)%N; try rewrite S1 by auto; reflexivity.
Qed.

Lemma run_media_op_ok : forall op m, media_ok m -> media_ok (run_media_op op m).
Proof.
  intros op m H. destruct op; cbn [run_media_op]; auto.
  - apply add_attribute_media_ok; auto.
  - apply set_attribute_media_ok; auto.
  - apply remove_attribute_media_ok; auto.
  - unfold remove_codecs. apply media_ok_filter. exact H.
  - unfold add_codec. apply add_attribute_media_ok. exact H.
  - rewrite add_datachannel_eq. cbv zeta. cbn [fst].
    assert (G : forall x l m, In (sdp_name x) media_names -> media_ok m ->
                media_ok (with_attributes (filter l (m_attribute m) ++ [x]) m)).
    { clear. intros x l m Hx H. unfold media_ok. simpl. apply Forall_app. split; auto.
      apply (media_ok_filter l) in H. exact H. }
    match goal with |- media_ok (with_media_value _ ?x) => change (media_ok x) end.
    assert (media_ok (match get_proto m with
      | UdpDtlsSctp | TcpDtlsSctp =>
                with_attributes (filter (not_named "sctp-port") (m_attribute m) ++ [ASctpPort port])
                  (with_formats (Strings [name]) m)
            | _ => with_attributes (filter (not_named "sctpmap") (m_attribute m) ++
                                    [ASctpmap {| sm_port := port; sm_channels := streams |}])
                  (with_formats (Integers [port]) m)
      end)) as K.
    { destruct (get_proto m);
        match goal with |- media_ok (with_attributes (filter ?f _ ++ [?x]) ?m') =>
          apply (G x f m'); [apply existsb_name; reflexivity|exact H] end. }
    destruct (0 <? msg_size)%N; auto. apply G; auto. apply existsb_name; reflexivity.
Qed.
Lemma built_media_ok : forall m, built_media m -> media_ok m.
Proof.
  intros m [l [ops H]]. subst m.
  assert (G : forall ops m, media_ok m -> media_ok (fold_left (fun m op => run_media_op op m) ops m)).
  { clear. induction ops as [|op ops IH]; intros m H; simpl; auto. apply IH, run_media_op_ok. auto. }
  apply G. constructor.
Qed.

Lemma set_attribute_ok : forall a m, In (sdp_name a) media_names ->
  set_attribute a m =
  (with_attributes (filter (not_named (sdp_name a)) (m_attribute m) ++ [a]) m, Ok tt).
Proof.
  intros a m H. unfold set_attribute. rewrite add_attribute_ok by auto.
  rewrite remove_attribute_spec, name_of_type. reflexivity.
Qed.
Lemma set_attribute_err : forall a m, media_ok m -> ~ In (sdp_name a) media_names ->
  exists e, set_attribute a m = (m, Err e).
Proof.
  intros a m H N. unfold set_attribute.
  destruct (add_attribute_err a (remove_attribute (attr_type_of a) m) N) as [e He].
  exists e. rewrite He. f_equal. rewrite remove_attribute_spec, name_of_type.
  apply with_attributes_id. apply filter_all. apply forallb_forall. intros x Hx.
  unfold not_named, named. destruct (String.eqb_spec (sdp_name x) (sdp_name a)); auto.
  unfold media_ok in H. rewrite Forall_forall in H. specialize (H x Hx). congruence.
Qed.

(** C22 *)
Lemma media_attribute_laws : forall m, built_media m ->
  Forall (fun a => In (sdp_name a) media_names) (m_attribute m) /\
  (forall a, In (sdp_name a) media_names ->
     add_attribute a m = (with_attributes (m_attribute m ++ [a]) m, Ok tt) /\
     set_attribute a m =
       (with_attributes (filter (not_named (sdp_name a)) (m_attribute m) ++ [a]) m, Ok tt) /\
     get_attributes_of_type (attr_type_of a) (fst (set_attribute a m)) = [a]) /\
  (forall a, ~ In (sdp_name a) media_names ->
     (exists e, add_attribute a m = (m, Err e)) /\ (exists e, set_attribute a m = (m, Err e))) /\
  (forall t, remove_attribute t m =
     with_attributes (filter (not_named (type_name t)) (m_attribute m)) m /\
     get_attribute t (remove_attribute t m) = None) /\
  (forall t, get_attributes_of_type t m = filter (named (type_name t)) (m_attribute m) /\
     get_attribute t m = hd_error (filter (named (type_name t)) (m_attribute m))).
Proof.
  intros m B. pose proof (built_media_ok m B) as OK. split; [exact OK|].
  assert (GT : forall t m', get_attributes_of_type t m' = filter (named (type_name t)) (m_attribute m')).
  { intros t m'. unfold get_attributes_of_type. apply filter_ext_eq. intros x. apply type_named. }
  assert (GA : forall t m', get_attribute t m' = hd_error (filter (named (type_name t)) (m_attribute m'))).
  { intros t m'. unfold get_attribute. rewrite find_hd_filter. f_equal. apply GT. }
  assert (FF : forall n l, filter (named n) (filter (not_named n) l) = []).
  { clear. intros n l. induction l as [|x l IH]; simpl; auto. unfold not_named at 1.
    destruct (named n x) eqn:K; simpl; auto. rewrite K. auto. }
  split; [|split; [|split]].
  - intros a Ha. split; [apply add_attribute_ok; auto|].
    split; [apply set_attribute_ok; auto|]. rewrite set_attribute_ok by auto.
    rewrite GT, name_of_type. cbn [fst m_attribute with_attributes].
    rewrite filter_app, FF. simpl. rewrite named_refl. reflexivity.
  - intros a Ha. split; [apply add_attribute_err; auto|apply set_attribute_err; auto].
  - intros t. split; [apply remove_attribute_spec|].
    rewrite GA, remove_attribute_spec. cbn [m_attribute with_attributes]. rewrite FF. reflexivity.
  - intros t. auto.
Qed.

(** C23 *)
Lemma is_codec_spec : forall a, is_codec_attr a = is_codec a.
Proof. destruct a; reflexivity. Qed.
Lemma remove_codecs_spec : forall m,
  m_media (remove_codecs m) =
    {| ml_media := ml_media (m_media m); ml_port := ml_port (m_media m);
       ml_port_count := ml_port_count (m_media m); ml_proto := ml_proto (m_media m);
       ml_formats := match ml_formats (m_media m) with
                     | Integers _ => Integers [] | Strings _ => Strings [] end |} /\
  m_connection (remove_codecs m) = m_connection m /\
  m_bandwidth (remove_codecs m) = m_bandwidth m /\
  m_attribute (remove_codecs m) = filter (fun a => negb (is_codec a)) (m_attribute m).
Proof.
  intros m. repeat split. simpl. apply filter_ext_eq. intros a. rewrite is_codec_spec. auto.
Qed.
Lemma add_codec_spec : forall r m, exists m', add_codec r m = (m', Ok tt) /\
  m_media m' =
    {| ml_media := ml_media (m_media m); ml_port := ml_port (m_media m);
       ml_port_count := ml_port_count (m_media m); ml_proto := ml_proto (m_media m);
       ml_formats := match ml_formats (m_media m) with
                     | Integers x => Integers (x ++ [rm_payload_type r])
                     | Strings x => Strings (x ++ [show_N (rm_payload_type r)]) end |} /\
  m_connection m' = m_connection m /\ m_bandwidth m' = m_bandwidth m /\
  m_attribute m' = m_attribute m ++ [ARtpmap r].
Proof.
  intros r m. unfold add_codec. rewrite add_attribute_ok by (apply existsb_name; reflexivity).
  eexists. split; [reflexivity|]. repeat split.
Qed.
Lemma rtpmaps_filter : forall l,
  flat_map (fun a => match a with ARtpmap r => [r] | _ => [] end)
           (filter (fun a => negb (is_codec a)) l) = [].
Proof. induction l as [|a l IH]; simpl; auto. destruct a; simpl; auto. Qed.
Lemma codecs_consistent : forall ops m,
  let m' := fold_left (fun m op => run_codec_op op m) ops (remove_codecs m) in
  rtpmaps m' = codecs_after ops /\ formats_are (ml_formats (m_media m')) (codecs_after ops) /\
  filter (fun a => negb (is_codec a)) (m_attribute m') =
  filter (fun a => negb (is_codec a)) (m_attribute m).
Proof.
  intros ops m. induction ops as [|op ops IH] using rev_ind; intros m'; subst m'.
  - cbn [fold_left]. destruct (remove_codecs_spec m) as [H1 [H2 [H3 H4]]].
    unfold rtpmaps, formats_are. rewrite H1, H4. cbn [ml_formats]. split; [apply rtpmaps_filter|].
    split; [destruct (ml_formats (m_media m)); reflexivity|].
    apply filter_idem.
  - rewrite fold_left_app. cbn [fold_left].
    set (mm := fold_left (fun m op => run_codec_op op m) ops (remove_codecs m)) in *.
    destruct IH as [IH1 [IH2 IH3]]. unfold codecs_after. rewrite fold_left_app. cbn [fold_left].
    fold (codecs_after ops). destruct op as [|r]; cbn [run_codec_op].
    + destruct (remove_codecs_spec mm) as [H1 [H2 [H3 H4]]].
      unfold rtpmaps, formats_are. rewrite H1, H4. cbn [ml_formats]. split; [apply rtpmaps_filter|].
      split; [destruct (ml_formats (m_media mm)); reflexivity|]. rewrite <- IH3.
      apply filter_idem.
    + destruct (add_codec_spec r mm) as [m' [H0 [H1 [H2 [H3 H4]]]]]. rewrite H0. cbn [fst].
      unfold rtpmaps, formats_are in *. rewrite H1, H4. cbn [ml_formats].
      rewrite flat_map_app, IH1. split; [reflexivity|]. split.
      * destruct (ml_formats (m_media mm)); rewrite map_app, IH2; reflexivity.
      * rewrite filter_app, IH3. cbn. apply app_nil_r.
Qed.

(** C24 *)
Lemma add_datachannel_spec : forall name port streams size m, exists m',
  add_datachannel name port streams size m = (m', Ok tt) /\
  let new_style := match ml_proto (m_media m) with UdpDtlsSctp | TcpDtlsSctp => true | _ => false end in
  m_media m' = {| ml_media := Application; ml_port := ml_port (m_media m);
                  ml_port_count := ml_port_count (m_media m); ml_proto := ml_proto (m_media m);
                  ml_formats := if new_style then Strings [name] else Integers [port] |} /\
  m_connection m' = m_connection m /\ m_bandwidth m' = m_bandwidth m /\
  filter (named (if new_style then "sctp-port" else "sctpmap")) (m_attribute m') =
    [if new_style then ASctpPort port else ASctpmap {| sm_port := port; sm_channels := streams |}] /\
  filter (named "max-message-size") (m_attribute m') =
    (if (0 <? size)%N then [AMaxMessageSize size]
     else filter (named "max-message-size") (m_attribute m)) /\
  (forall n, n <> (if new_style then "sctp-port" else "sctpmap")%string -> n <> "max-message-size"%string ->
     filter (named n) (m_attribute m') = filter (named n) (m_attribute m)) /\
  filter (fun a => not_named (if new_style then "sctp-port" else "sctpmap") a &&
                   not_named "max-message-size" a) (m_attribute m') =
  filter (fun a => not_named (if new_style then "sctp-port" else "sctpmap") a &&
                   not_named "max-message-size" a) (m_attribute m).
Proof.
  intros name port streams size m. rewrite add_datachannel_eq. cbv zeta. eexists. split; [reflexivity|].
  unfold get_proto.
  assert (FF : forall n l, filter (named n) (filter (not_named n) l) = []).
  { clear. intros n l. induction l as [|x l IH]; simpl; auto. unfold not_named at 1.
    destruct (named n x) eqn:K; simpl; auto. rewrite K. auto. }
  assert (FN : forall n n' l, n <> n' -> filter (named n) (filter (not_named n') l) = filter (named n) l).
  { clear. intros n n' l Hn. induction l as [|x l IH]; simpl; auto. unfold not_named at 1.
    destruct (named n' x) eqn:K; simpl.
    - destruct (named n x) eqn:K2; auto. apply named_eq in K, K2. congruence.
    - destruct (named n x); rewrite IH; auto. }
  assert (FB : forall n1 n2 n l, n = n1 \/ n = n2 ->
    filter (fun a => not_named n1 a && not_named n2 a) (filter (not_named n) l) =
    filter (fun a => not_named n1 a && not_named n2 a) l).
  { clear. intros n1 n2 n l Hn. induction l as [|x l IH]; simpl; auto.
    destruct (not_named n x) eqn:K; simpl; rewrite IH; auto.
    assert (K2 : not_named n1 x && not_named n2 x = false)
      by (destruct Hn; subst; rewrite K; auto using andb_false_r).
    rewrite K2. auto. }
  assert (NM : forall n1 n2 a, sdp_name a = n1 \/ sdp_name a = n2 -> not_named n1 a && not_named n2 a = false).
  { clear. intros n1 n2 a [H|H]; unfold not_named; rewrite <- H, named_refl; simpl; auto using andb_false_r. }
  assert (F1 : forall n a, n <> sdp_name a -> filter (named n) [a] = []).
  { clear. intros n a H. cbn [filter]. destruct (named n a) eqn:K; auto. apply named_eq in K. congruence. }
  destruct (ml_proto (m_media m)) eqn:PE; cbv beta iota;
    destruct (0 <? size)%N;
    (split; [cbn; rewrite ?PE; reflexivity|]); (split; [reflexivity|]); (split; [reflexivity|]);
    cbn [m_attribute with_attributes with_media_value with_media_line with_formats];
    rewrite ?filter_app;
    (split; [rewrite ?filter_app, ?FN, ?FF by discriminate; rewrite ?filter_app, ?FF; reflexivity|]);
    (split; [rewrite ?filter_app, ?FF, ?FN by discriminate; simpl; rewrite ?app_nil_r; auto|]);
    (split; [intros n Hn1 Hn2; rewrite ?filter_app, ?FN, ?filter_app, ?FN by auto;
             rewrite ?F1 by (cbn [sdp_name]; auto); rewrite ?app_nil_r; auto
            |rewrite ?filter_app, ?FB, ?filter_app, ?FB by auto;
             cbn [filter]; rewrite ?NM by (simpl; auto); rewrite ?app_nil_r; auto]).
Qed.

(** C25 *)
Lemma add_media_spec : forall mt d port proto addr s,
  (In (sdp_name d) media_names ->
   add_media mt d port proto addr s =
   (session_extend_media
      [{| m_media := {| ml_media := mt; ml_port := port; ml_port_count := 1; ml_proto := proto;
                        ml_formats := Integers [] |};
          m_connection := Some {| conn_address := addr; conn_ttl := None; conn_amount := None |};
          m_bandwidth := []; m_attribute := [d] |}] s, Ok tt)) /\
  (~ In (sdp_name d) media_names -> exists e, add_media mt d port proto addr s = (s, Err e)).
Proof.
  intros mt d port proto addr s. unfold add_media. split; intros H.
  - rewrite add_attribute_ok by auto. reflexivity.
  - destruct (add_attribute_err d (media_new {| ml_media := mt; ml_port := port; ml_port_count := 1;
      ml_proto := proto; ml_formats := Integers [] |}) H) as [e He]. rewrite He. exists e. auto.
Qed.
Lemma session_add_attribute_spec : forall a s,
  (In (sdp_name a) session_names ->
   session_add_attribute a s = (session_with_attributes (s_attribute s ++ [a]) s, Ok tt)) /\
  (~ In (sdp_name a) session_names -> exists e, session_add_attribute a s = (s, Err e)).
Proof.
  intros a s. unfold session_add_attribute. split; intros H.
  - apply allowed_session in H. rewrite H. reflexivity.
  - destruct (allowed_at_session_level a) eqn:K; [apply allowed_session in K; tauto|].
    eexists. reflexivity.
Qed.
Lemma session_add_attribute_levels : forall a s, levels_ok s -> levels_ok (fst (session_add_attribute a s)).
Proof.
  intros a s [H1 H2]. destruct (session_add_attribute_spec a s) as [K1 K2].
  destruct (in_dec string_dec (sdp_name a) session_names) as [Y|N].
  - rewrite K1 by auto. split; simpl; auto. apply Forall_app. auto.
  - destruct (K2 N) as [e He]. rewrite He. split; auto.
Qed.
Lemma parse_session_vector_levels : forall l s, levels_ok s -> levels_ok (fst (parse_session_vector s l)).
Proof.
  induction l as [|x l IH]; intros s H; cbn [parse_session_vector]; auto.
  destruct (l_type x); auto; try (apply IH; destruct H; split; assumption).
  - pose proof (session_add_attribute_levels a s H) as K. destruct (session_add_attribute a s) as [s' []]; auto.
Qed.
Lemma on_nth_Forall : forall A (P : A -> Prop) f i l, (forall x, P x -> P (f x)) ->
  Forall P l -> Forall P (on_nth i f l).
Proof.
  intros A P f i l Hf H. revert i. induction H as [|x l Hx H IH]; intros i; destruct i; simpl; auto.
Qed.
Lemma run_session_op_levels : forall op s, op_ok op -> levels_ok s -> levels_ok (run_session_op op s).
Proof.
  intros op s Hop H. destruct op; cbn [run_session_op]; auto.
  - apply session_add_attribute_levels; auto.
  - apply parse_session_vector_levels; auto.
  - destruct H. split; auto. simpl. apply Forall_app. split; auto.
    simpl in Hop. revert Hop. apply Forall_impl. apply built_media_ok.
  - destruct (add_media_spec mt direction port proto addr s) as [K1 K2].
    destruct (in_dec string_dec (sdp_name direction) media_names) as [Y|N].
    + rewrite K1 by auto. destruct H. split; auto. cbn [s_media fst session_extend_media].
      apply Forall_app. split; auto. constructor; [|constructor].
      constructor; [exact Y|constructor].
    + destruct (K2 N) as [e He]. rewrite He. auto.
  - destruct H. split; auto. simpl. apply on_nth_Forall; auto. apply run_media_op_ok.
Qed.
Lemma built_session_levels : forall s, built_session s -> levels_ok s.
Proof.
  intros s [v [o [n [ops [H1 H2]]]]]. subst s.
  assert (G : forall ops s, Forall op_ok ops -> levels_ok s ->
            levels_ok (fold_left (fun s op => run_session_op op s) ops s)).
  { clear. intros ops s H. revert s. induction H as [|op ops Hop H IH]; intros s Hs; simpl; auto.
    apply IH, run_session_op_levels; auto. }
  apply G; auto. split; constructor.
Qed.
End WithExt.

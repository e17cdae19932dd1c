(** * Proofs: assembling lines into sessions (C06-C09, C38) *)
From Coq Require Import List NArith ZArith Bool Ascii String Lia Sorting.Sorted.
From Coq Require Import ZifyBool ZifyNat ZifyN.
From Verif Require Import Str Num Net Types Ext Show AttrParse Media Session
  StrLemmas NumLemmas SpecApi PApi SpecDoc PPanic.
Import ListNotations.
Open Scope N_scope.
Open Scope list_scope.

Lemma blank_forallb : forall s, blank s <-> forallb is_ws s = true.
Proof. intros s. unfold blank. rewrite Forall_forall, forallb_forall. tauto. Qed.
Lemma blank_trim : forall s, is_empty (trim s) = true <-> blank s.
Proof. intros s. rewrite is_empty_true, trim_empty_iff, blank_forallb. tauto. Qed.
Lemma blank_trim_false : forall s, is_empty (trim s) = false <-> ~ blank s.
Proof. intros s. rewrite <- blank_trim. destruct (is_empty (trim s)); split; congruence. Qed.
Lemma blank_dec : forall s, blank s \/ ~ blank s.
Proof. intros s. rewrite <- blank_trim. destruct (is_empty (trim s)); auto. Qed.

Lemma is_some_present : forall A (o : option A), is_some o = true <-> present o.
Proof.
  intros A [x|]; unfold present; cbn; split; intros H; eauto; try discriminate. destruct H; discriminate.
Qed.
Lemma find_has : forall t l,
  is_some (find (fun a => attr_type_eqb (attr_type_of a) t) l) = true <-> has (type_name t) l.
Proof.
  intros t l. unfold has. induction l as [|x l IH]; cbn [find].
  - split; [discriminate|intros [a [[] _]]].
  - rewrite type_named. destruct (named (type_name t) x) eqn:K.
    + apply named_eq in K. split; [exists x; split; [left; auto|auto]|auto].
    + rewrite IH. split; intros [a [H1 H2]]; exists a; (split; [|exact H2]); [right; auto|].
      destruct H1 as [->|H1]; auto. apply named_eq in H2. congruence.
Qed.

Lemma session_name_spec : forall text,
  session_name text (if is_empty (trim text) then None else Some (trim text)).
Proof.
  intros text. destruct (is_empty (trim text)) eqn:K; cbn [session_name].
  - apply blank_trim; auto.
  - destruct (trim_decompose text) as [w1 [w2 [H1 [H2 H3]]]]. exists w1, w2.
    repeat split; auto; try (apply blank_forallb; auto).
    + destruct (trim_cases text) as [T|[[c [x [T C]]] _]]; [rewrite T in K; discriminate|eauto].
    + destruct (trim_cases text) as [T|[_ [x [c [T C]]]]]; [rewrite T in K; discriminate|eauto].
Qed.
Lemma session_name_unique : forall text r, session_name text r ->
  r = if is_empty (trim text) then None else Some (trim text).
Proof.
  intros text [n|] H; cbn [session_name] in H.
  - destruct H as [w1 [w2 [-> [H1 [H2 [H3 H4]]]]]]. apply blank_forallb in H1, H2.
    rewrite trim_pad by auto. rewrite trim_id.
    + destruct n; auto. destruct H3 as [? [? [? _]]]; discriminate.
    + split; destruct H3 as [c [x [-> ?]]], H4 as [c' [x' [E ?]]]; [exists c, x|exists x', c']; auto.
  - apply blank_trim in H. rewrite H. auto.
Qed.

Section WithExt.
Context {E : Ext}.

(** ** Session level *)
Definition session_plus (s : session) (l : list sdp_type) : session :=
  {| s_version := s_version s; s_origin := s_origin s; s_session := s_session s;
     s_connection := match last_of (connections l) with Some c => Some c | None => s_connection s end;
     s_bandwidth := s_bandwidth s ++ bandwidths l;
     s_timing := match last_of (timings l) with Some t => Some t | None => s_timing s end;
     s_attribute := s_attribute s ++ attributes l; s_media := s_media s;
     s_warnings := s_warnings s |}.
Lemma last_of_cons : forall A (x : A) l,
  last_of (x :: l) = match last_of l with Some y => Some y | None => Some x end.
Proof.
  intros A x l. unfold last_of. cbn [rev]. destruct (rev l); auto.
Qed.
Lemma session_plus_cons : forall t l s, session_item t ->
  session_plus s (t :: l) = session_plus (session_plus s [t]) l.
Proof.
  intros t l s H. destruct t; try contradiction; unfold session_plus;
    cbn [s_version s_origin s_session s_connection s_bandwidth s_timing s_attribute s_media s_warnings];
    unfold connections, bandwidths, timings, attributes; cbn [flat_map app];
    rewrite ?app_nil_r, <- ?app_assoc, ?last_of_cons; cbn [app]; auto;
    (f_equal; destruct (last_of _); auto).
Qed.
Lemma session_plus_nil : forall s, session_plus s [] = s.
Proof. intros []. unfold session_plus. cbn. rewrite !app_nil_r. auto. Qed.

Lemma session_vector_ok : forall l s, Forall session_item (map l_type l) ->
  parse_session_vector s l = (session_plus s (map l_type l), Ok tt).
Proof.
  induction l as [|x l IH]; intros s H; cbn [parse_session_vector map].
  - rewrite session_plus_nil. auto.
  - cbn [map] in H. inv H. rewrite session_plus_cons by auto.
    destruct (l_type x) eqn:K; try contradiction.
    + cbn [session_item] in H2. rewrite (proj1 (session_add_attribute_spec a s) H2), IH by auto.
      f_equal. f_equal. unfold session_plus, session_with_attributes. cbn. rewrite !app_nil_r. auto.
    + rewrite IH by auto. f_equal. f_equal. unfold session_plus, session_add_bandwidth. cbn. rewrite !app_nil_r. auto.
    + rewrite IH by auto. f_equal. f_equal. unfold session_plus, session_set_connection. cbn. rewrite !app_nil_r. auto.
    + rewrite IH by auto. f_equal. f_equal. unfold session_plus, session_set_timing. cbn. rewrite !app_nil_r. auto.
Qed.
Lemma session_vector_bad : forall l s x r, Forall session_item (map l_type l) ->
  ~ session_item (l_type x) ->
  exists s' m, parse_session_vector s (l ++ x :: r) = (s', Err (PSequence m (l_number x))).
Proof.
  induction l as [|y l IH]; intros s x r H1 H2; cbn [app parse_session_vector].
  - destruct (l_type x) eqn:K; cbn [session_item] in H2; try tauto; eauto.
    destruct (proj2 (session_add_attribute_spec a s) H2) as [e He]. rewrite He. eauto.
  - cbn [map] in H1. inv H1. destruct (l_type y) eqn:K; try contradiction; auto.
    cbn [session_item] in H3. rewrite (proj1 (session_add_attribute_spec a s) H3). auto.
Qed.
Lemma session_item_dec : forall t, session_item t \/ ~ session_item t.
Proof.
  intros []; cbn [session_item]; auto.
  destruct (in_dec string_dec (sdp_name a) session_names); auto.
Qed.
Lemma first_bad : forall A (P : A -> Prop) (l : list A), (forall x, P x \/ ~ P x) ->
  Forall P l \/ exists a x b, l = a ++ x :: b /\ Forall P a /\ ~ P x.
Proof.
  intros A P l D. induction l as [|x l IH]; [left; constructor|].
  destruct (D x) as [Y|N].
  - destruct IH as [IH|[a [y [b [-> [H1 H2]]]]]]; [left; constructor; auto|].
    right. exists (x :: a), y, b. split; auto.
  - right. exists [], x, l. auto.
Qed.
Lemma session_vector_inv : forall l s s', parse_session_vector s l = (s', Ok tt) ->
  Forall session_item (map l_type l) /\ s' = session_plus s (map l_type l).
Proof.
  intros l s s' H.
  destruct (first_bad _ (fun x => session_item (l_type x)) l (fun x => session_item_dec _))
    as [K|[a [x [b [-> [K1 K2]]]]]].
  - assert (F : Forall session_item (map l_type l)) by (rewrite Forall_map; auto).
    split; auto. rewrite session_vector_ok in H by auto. congruence.
  - destruct (session_vector_bad a s x b) as [s1 [m K]]; [rewrite Forall_map; auto|auto|]. congruence.
Qed.

(** ** Media level *)
Lemma media_item_dec : forall t, media_item t \/ ~ media_item t.
Proof.
  intros []; cbn [media_item]; auto.
  destruct (in_dec string_dec (sdp_name a) media_names), (string_dec (sdp_name a) "dtls-message"); tauto.
Qed.
Definition media_plus (m : media) (l : list sdp_type) : media :=
  {| m_media := m_media m;
     m_connection := match m_connection m with Some c => Some c | None => hd_error (connections l) end;
     m_bandwidth := m_bandwidth m ++ bandwidths l;
     m_attribute := m_attribute m ++ filter (not_named "dtls-message") (attributes l) |}.
Definition conns (m : media) (l : list sdp_type) : nat :=
  ((if is_some (m_connection m) then 1 else 0) + List.length (connections l))%nat.
Lemma media_plus_nil : forall m, media_plus m [] = m.
Proof.
  intros []. unfold media_plus. cbn. rewrite !app_nil_r. destruct m_connection; auto.
Qed.
Lemma section_media_plus : forall s, section_media s = media_plus (media_new (fst s)) (snd s).
Proof. intros [l b]. reflexivity. Qed.
Lemma media_plus_cons : forall t l m, media_item t -> (conns m (t :: l) <= 1)%nat ->
  media_plus m (t :: l) = media_plus (media_plus m [t]) l /\
  conns (media_plus m [t]) l = conns m (t :: l).
Proof.
  intros t l m H C. unfold media_plus, conns in *. cbn [m_media m_connection m_bandwidth m_attribute].
  destruct t; try contradiction; unfold connections, bandwidths, attributes in *; cbn [flat_map app] in *;
    rewrite ?app_nil_r, <- ?app_assoc.
  - cbn [filter]. destruct (m_connection m); cbn [hd_error is_some]; split; auto;
      f_equal; destruct (not_named "dtls-message" a); auto.
  - destruct (m_connection m); cbn [hd_error is_some]; split; auto.
  - destruct (m_connection m); cbn [hd_error is_some List.length filter] in *; split; auto; try lia.
    all: rewrite ?app_nil_r; auto.
Qed.
Lemma line_attribute_ok : forall a m, In (sdp_name a) media_names \/ sdp_name a = "dtls-message"%string ->
  media_line_attribute a m = (media_plus m [TyAttribute a], Ok tt).
Proof.
  intros a m H. unfold media_plus. cbn. rewrite app_nil_r.
  assert (D : sdp_name a = "dtls-message"%string \/ In (sdp_name a) media_names /\ not_named "dtls-message" a = true
              /\ media_line_attribute a m = add_attribute a m).
  { destruct a as [ | | | | | | | | | | | | | | | | | | | | | | | | | | | | |r| | | | | | | | | | | | | ];
      destruct H as [H|H]; try (left; exact H; fail); try discriminate;
      try (right; split; [exact H|split; reflexivity]).
    - left. reflexivity.
    - right. split; [exact H|]. split; [reflexivity|]. destruct r; reflexivity. }
  destruct D as [D|[D1 [D2 D3]]].
  - destruct a; try discriminate. cbn. rewrite app_nil_r. destruct m as [? [|] ? ?]; auto.
  - rewrite D2, D3, add_attribute_ok by auto. unfold with_attributes. destruct m as [? [|] ? ?]; auto.
Qed.
Lemma line_attribute_bad : forall a m, ~ (In (sdp_name a) media_names \/ sdp_name a = "dtls-message"%string) ->
  exists m' e, media_line_attribute a m = (m', Err e).
Proof.
  intros a m H. assert (K : media_line_attribute a m = add_attribute a m).
  { destruct a; auto; exfalso; apply H; cbn [sdp_name]; [right; auto|left].
    apply existsb_name. reflexivity. }
  rewrite K. destruct (add_attribute_err a m) as [e He]; [tauto|]. eauto.
Qed.

Lemma media_loop_body : forall body d m rest, Forall media_item (map l_type body) ->
  (conns m (map l_type body) <= 1)%nat ->
  media_loop d m (body ++ rest) = media_loop d (media_plus m (map l_type body)) rest.
Proof.
  induction body as [|x l IH]; intros d m rest H C; cbn [app map] in *.
  - rewrite media_plus_nil. auto.
  - inv H. destruct (media_plus_cons _ _ _ H2 C) as [P1 P2]. rewrite P1. rewrite <- P2 in C.
    cbn [media_loop]. destruct (l_type x) eqn:K; try contradiction.
    + rewrite line_attribute_ok by exact H2. rewrite IH; auto.
    + rewrite <- IH by auto. f_equal. unfold add_bandwidth, media_plus. cbn. rewrite app_nil_r.
      destruct (m_connection m); auto.
    + destruct (m_connection m) eqn:K2.
      { exfalso. unfold conns in *. rewrite P2 in C. rewrite K2 in C. cbn in C. lia. }
      rewrite <- IH by auto. f_equal. unfold set_media_connection, media_plus. rewrite K2. cbn.
      rewrite !app_nil_r. auto.
Qed.
Lemma media_loop_sections : forall secs (ls : list sdp_line) d m,
  map l_type ls = flat_map section_lines secs -> Forall section_ok secs ->
  media_loop d m ls = Ok (d ++ m :: map section_media secs).
Proof.
  induction secs as [|[ml b] secs IH]; intros ls d m H F.
  - destruct ls; [|discriminate]. reflexivity.
  - cbn [flat_map section_lines fst snd app] in H. destruct ls as [|x ls]; [discriminate|].
    cbn [map] in H. injection H as H1 H2.
    apply map_eq_app in H2. destruct H2 as [l1 [l2 [-> [H2 H3]]]].
    inv F. destruct H4 as [F1 F2]. cbn [fst snd] in *.
    cbn [media_loop]. rewrite H1. rewrite media_loop_body.
    + rewrite (IH l2) by auto. rewrite <- app_assoc. cbn [app map]. reflexivity.
    + auto.
    + unfold conns. cbn. auto.
Qed.
(** Everything a run of lines after an m= line can be. *)
Definition good_body (m : media) (l : list sdp_type) : Prop :=
  Forall media_item l /\ (conns m l <= 1)%nat.
Definition bad_after (m : media) (body : list sdp_type) (t : sdp_type) : Prop :=
  match t with
  | TyMedia _ => False
  | TyConnection _ => conns m body = 1%nat
  | TyAttribute a => ~ (In (sdp_name a) media_names \/ sdp_name a = "dtls-message"%string)
  | TyBandwidth _ => False
  | _ => True
  end.
Lemma media_loop_bad : forall body d m x rest, good_body m (map l_type body) ->
  bad_after m (map l_type body) (l_type x) ->
  exists msg, media_loop d m (body ++ x :: rest) = Err (PSequence msg (l_number x)).
Proof.
  intros body d m x rest [G1 G2] B. rewrite media_loop_body by auto. cbn [media_loop].
  destruct (l_type x) eqn:K; cbn [bad_after] in B; try contradiction; eauto.
  - destruct (line_attribute_bad a (media_plus m (map l_type body)) B) as [m' [e He]]. rewrite He. eauto.
  - unfold media_plus at 1. cbn [m_connection]. unfold conns in B.
    destruct (m_connection m); eauto. destruct (connections (map l_type body)); [discriminate|cbn; eauto].
Qed.
Lemma conns_snoc : forall m a b, conns m (a ++ b) = (conns m a + List.length (connections b))%nat.
Proof. intros. unfold conns, connections. rewrite flat_map_app, app_length. lia. Qed.
(** A list of lines either is a body followed by sections, or has a first line
    that is out of place. *)
Lemma media_cases : forall (ls : list sdp_line) m,
  (exists body secs, map l_type ls = body ++ flat_map section_lines secs /\ good_body m body /\
     Forall section_ok secs) \/
  (exists body x rest, ls = body ++ x :: rest /\ good_body m (map l_type body) /\
     bad_after m (map l_type body) (l_type x)) \/
  (exists body secs y cur x rest ml, ls = body ++ secs ++ y :: cur ++ x :: rest /\
     good_body m (map l_type body) /\
     (exists ss, map l_type secs = flat_map section_lines ss /\ Forall section_ok ss) /\
     l_type y = TyMedia ml /\ good_body (media_new ml) (map l_type cur) /\
     bad_after (media_new ml) (map l_type cur) (l_type x)).
Proof.
  induction ls as [|x ls IH]; intros m.
  - left. exists [], []. split; [reflexivity|]. split; [split; [constructor|]|constructor].
    unfold conns. destruct (m_connection m); cbn; lia.
  - assert (Z : (conns m [] <= 1)%nat) by (unfold conns; destruct (m_connection m); cbn; lia).
    destruct (l_type x) eqn:K;
    try (right; left; exists [], x, ls; split; [reflexivity|split; [split; [constructor|exact Z]|rewrite K; exact I]]; fail).
    + (* attribute *)
      destruct (media_item_dec (TyAttribute a)) as [Y|N].
      * specialize (IH m).
        destruct IH as [[body [secs [H1 [[H2 H3] H4]]]]|[[body [y [r [H1 [[H2 H3] H4]]]]]|[body [secs [y [cur [z [r [ml [H1 [[H2 H3] H4]]]]]]]]]]].
        -- left. exists (TyAttribute a :: body), secs. cbn [map app]. rewrite K, H1.
           split; [reflexivity|]. split; [split; [constructor; auto|exact H3]|exact H4].
        -- right; left. exists (x :: body), y, r. subst ls. cbn [map]. rewrite K.
           split; [reflexivity|]. split; [split; [constructor; auto|exact H3]|exact H4].
        -- right; right. exists (x :: body), secs, y, cur, z, r, ml. subst ls. cbn [map]. rewrite K.
           split; [reflexivity|]. split; [split; [constructor; auto|exact H3]|exact H4].
      * right; left. exists [], x, ls. split; [reflexivity|]. split; [split; [constructor|exact Z]|rewrite K; exact N].
    + (* bandwidth *)
      specialize (IH m).
        destruct IH as [[body [secs [H1 [[H2 H3] H4]]]]|[[body [y [r [H1 [[H2 H3] H4]]]]]|[body [secs [y [cur [z [r [ml [H1 [[H2 H3] H4]]]]]]]]]]].
        -- left. exists (TyBandwidth b :: body), secs. cbn [map app]. rewrite K, H1.
           split; [reflexivity|]. split; [split; [constructor; [exact I|auto]|exact H3]|exact H4].
        -- right; left. exists (x :: body), y, r. subst ls. cbn [map]. rewrite K.
           split; [reflexivity|]. split; [split; [constructor; [exact I|auto]|exact H3]|exact H4].
        -- right; right. exists (x :: body), secs, y, cur, z, r, ml. subst ls. cbn [map]. rewrite K.
           split; [reflexivity|]. split; [split; [constructor; [exact I|auto]|exact H3]|exact H4].
    + (* connection *)
      destruct (m_connection m) as [c0|] eqn:Kc.
      * right; left. exists [], x, ls. split; [reflexivity|]. split; [split; [constructor|exact Z]|].
        rewrite K. cbn. unfold conns. rewrite Kc. auto.
      * specialize (IH (set_media_connection c m)).
        assert (Q : forall l, conns (set_media_connection c m) l = conns m (TyConnection c :: l)).
        { intros l. unfold conns. rewrite Kc. cbn. auto. }
        destruct IH as [[body [secs [H1 [[H2 H3] H4]]]]|[[body [y [r [H1 [[H2 H3] H4]]]]]|[body [secs [y [cur [z [r [ml [H1 [[H2 H3] H4]]]]]]]]]]].
        -- left. exists (TyConnection c :: body), secs. cbn [map app]. rewrite K, H1.
           split; [reflexivity|]. split; [split; [constructor; [exact I|auto]|rewrite <- Q; exact H3]|exact H4].
        -- right; left. exists (x :: body), y, r. subst ls. cbn [map]. rewrite K.
           split; [reflexivity|]. split; [split; [constructor; [exact I|auto]|rewrite <- Q; exact H3]|].
           unfold bad_after in *. destruct (l_type y); auto. rewrite <- Q. exact H4.
        -- right; right. exists (x :: body), secs, y, cur, z, r, ml. subst ls. cbn [map]. rewrite K.
           split; [reflexivity|]. split; [split; [constructor; [exact I|auto]|rewrite <- Q; exact H3]|exact H4].
    + (* media *)
      specialize (IH (media_new m0)).
      destruct IH as [[body [secs [H1 [[H2 H3] H4]]]]|[[body [y [r [H1 [H2 H3]]]]]|[body [secs [y [cur [z [r [ml [H1 [[H2 H3] [[ss [H4 H5]] H6]]]]]]]]]]]].
      -- left. exists [], ((m0, body) :: secs). cbn [map app flat_map section_lines fst snd]. rewrite K, H1.
         split; [reflexivity|]. split; [split; [constructor|exact Z]|]. constructor; auto. split; auto.
      -- right; right. exists [], [], x, body, y, r, m0. subst ls. split; [reflexivity|].
         split; [split; [constructor|exact Z]|]. split; [exists []; split; [reflexivity|constructor]|].
         split; [exact K|]. split; [exact H2|exact H3].
      -- right; right. exists [], (x :: body ++ secs), y, cur, z, r, ml. subst ls. split.
         { cbn [app]. rewrite <- app_assoc. reflexivity. }
         split; [split; [constructor|exact Z]|]. split; [|exact H6].
         exists ((m0, map l_type body) :: ss). cbn [map flat_map section_lines fst snd app].
         rewrite map_app, K, H4. split; [reflexivity|]. constructor; auto. split; auto.
Qed.

Lemma media_loop_app_secs : forall ss (secs : list sdp_line) d m y rest ml,
  map l_type secs = flat_map section_lines ss -> Forall section_ok ss -> l_type y = TyMedia ml ->
  media_loop d m (secs ++ y :: rest) = media_loop (d ++ m :: map section_media ss) (media_new ml) rest.
Proof.
  induction ss as [|[l0 b] ss IH]; intros secs d m y rest ml H F K.
  - destruct secs; [|discriminate]. cbn [app media_loop map]. rewrite K. auto.
  - cbn [flat_map section_lines fst snd app] in H. destruct secs as [|x ls]; [discriminate|].
    cbn [map] in H. injection H as H1 H2. apply map_eq_app in H2. destruct H2 as [l1 [l2 [-> [H2 H3]]]].
    inv F. destruct H4 as [F1 F2]. cbn [fst snd] in *. cbn [app media_loop]. rewrite H1.
    rewrite <- app_assoc. rewrite media_loop_body; [|auto|unfold conns; cbn; auto].
    rewrite (IH l2 _ _ y rest ml) by auto. rewrite <- app_assoc. reflexivity.
Qed.

(** What [media_loop] does, completely. *)
Lemma media_loop_inv : forall ls d m ms, media_loop d m ls = Ok ms ->
  exists body secs, map l_type ls = body ++ flat_map section_lines secs /\ good_body m body /\
    Forall section_ok secs /\ ms = d ++ media_plus m body :: map section_media secs.
Proof.
  intros ls d m ms H.
  destruct (media_cases ls m) as [[body [secs [H1 [[H2 H3] H4]]]]|[[body [x [r [H1 [H2 H3]]]]]|[body [secs [y [cur [z [r [ml [H1 [[H2 H3] [[ss [H4 H5]] [H6 [H7 H8]]]]]]]]]]]]]].
  - exists body, secs. split; auto. split; [split; auto|]. split; auto.
    pose proof H1 as H5. apply map_eq_app in H1. destruct H1 as [l1 [l2 [-> [K1 K2]]]]. subst body.
    rewrite media_loop_body in H by auto. rewrite (media_loop_sections secs) in H by auto. congruence.
  - exfalso. subst ls. destruct (media_loop_bad body d m x r H2 H3) as [msg K]. congruence.
  - exfalso. subst ls. rewrite media_loop_body in H by auto.
    rewrite (media_loop_app_secs ss) with (ml := ml) in H by auto.
    destruct (media_loop_bad cur (d ++ media_plus m (map l_type body) :: map section_media ss) (media_new ml) z r H7 H8) as [msg K]. congruence.
Qed.
Lemma media_loop_err : forall ls d m e, media_loop d m ls = Err e -> exists msg n, e = PSequence msg n.
Proof.
  induction ls as [|x ls IH]; intros d m e H; cbn [media_loop] in H; [discriminate|].
  destruct (l_type x); try (inv H; eauto; fail); eauto.
  - destruct (media_line_attribute a m) as [? []]; eauto; [inv H; eauto|discriminate].
  - destruct (m_connection m); [inv H; eauto|eauto].
Qed.
Lemma session_vector_err : forall ls s s' e, parse_session_vector s ls = (s', Err e) -> exists msg n, e = PSequence msg n.
Proof.
  induction ls as [|x ls IH]; intros s s' e H; cbn [parse_session_vector] in H; [discriminate|].
  destruct (l_type x); try (inv H; eauto; fail); eauto.
  destruct (session_add_attribute a s) as [? []]; eauto; [inv H; eauto|discriminate].
Qed.

(** ** The checks on the whole session *)
Lemma defined_rids_spec : forall vs attrs d,
  defined_rids vs (rid_ids_of d (flat_map (fun a => match a with ARid r => [r] | _ => [] end) attrs)) = true <->
  (forall v i, In v vs -> In i v -> rid_defined attrs d (sid_id i)).
Proof.
  intros vs attrs d. unfold defined_rids. rewrite forallb_forall.
  assert (Q : forall s, mem_str s (rid_ids_of d (flat_map (fun a => match a with ARid r => [r] | _ => [] end) attrs)) = true
              <-> rid_defined attrs d s).
  { intros s. rewrite mem_str_In. unfold rid_ids_of, rid_defined. rewrite in_flat_map. split.
    - intros [r [H1 H2]]. apply in_flat_map in H1. destruct H1 as [a [H1 H3]].
      exists r. destruct a; try contradiction. destruct H3 as [H3|[]]. rewrite H3 in *. split; auto.
      destruct (single_direction_eqb (rid_direction r) d) eqn:K; [|contradiction].
      destruct H2 as [<-|[]]. split; auto. destruct (rid_direction r), d; auto; discriminate.
    - intros [r [H1 [H2 H3]]]. exists r. split.
      + apply in_flat_map. exists (ARid r). split; [auto|left; auto].
      + replace (single_direction_eqb (rid_direction r) d) with true by (subst d; destruct (rid_direction r); auto).
        left. auto. }
  split.
  - intros H v i Hv Hi. apply Q, H. apply in_concat. eauto.
  - intros H i Hi. apply in_concat in Hi. destruct Hi as [v [Hv Hi]]. apply Q. eauto.
Qed.
Lemma find_simulcast : forall l,
  match find (fun a => attr_type_eqb (attr_type_of a) TSimulcast) l with
  | Some (ASimulcast sc) => exists b a, l = b ++ ASimulcast sc :: a /\ ~ has "simulcast" b
  | Some _ => False
  | None => ~ has "simulcast" l
  end.
Proof.
  induction l as [|x l IH]; cbn [find]; [intros [z [[] _]]|].
  rewrite type_named. destruct (named (type_name TSimulcast) x) eqn:K.
  - apply named_eq in K. destruct x; try discriminate. exists [], l. split; auto. intros [z [[] _]].
  - assert (N : sdp_name x <> "simulcast"%string).
    { intros Hx. assert (T : named (type_name TSimulcast) x = true) by (apply named_eq; auto). congruence. }
    destruct (find _ l) as [y|].
    + destruct y; auto. destruct IH as [bf [af [-> H]]]. exists (x :: bf), af. split; auto.
      intros [z [[<-|Hz] Hn]]; [contradiction|]. apply H. exists z. auto.
    + intros [z [[<-|Hz] Hn]]; [contradiction|]. apply IH. exists z. auto.
Qed.
Lemma first_unique : forall (P : attr -> Prop) b1 x1 a1 b2 x2 a2,
  b1 ++ x1 :: a1 = b2 ++ x2 :: a2 -> P x1 -> P x2 ->
  (forall y, In y b1 -> ~ P y) -> (forall y, In y b2 -> ~ P y) -> x1 = x2.
Proof.
  intros P. induction b1 as [|y b1 IH]; intros x1 a1 b2 x2 a2 H P1 P2 N1 N2; destruct b2 as [|z b2];
    cbn [app] in H; injection H as H0 H1.
  - auto.
  - subst z. exfalso. apply (N2 x1); [left|]; auto.
  - subst y. exfalso. apply (N1 x2); [left|]; auto.
  - eapply IH; eauto; intros; [apply N1|apply N2]; right; auto.
Qed.
Lemma check_media_ok : forall m, sanity_check_media m = Ok tt <-> media_rules m.
Proof.
  intros m. unfold sanity_check_media, seq_error. cbv zeta.
  assert (A1 : is_some (get_attribute TRtcpMuxOnly m) && negb (is_some (get_attribute TRtcpMux m)) = false <->
               (has "rtcp-mux-only" (m_attribute m) -> has "rtcp-mux" (m_attribute m))).
  { unfold get_attribute. pose proof (find_has TRtcpMuxOnly (m_attribute m)) as F1.
    pose proof (find_has TRtcpMux (m_attribute m)) as F2. cbn [type_name] in *.
    destruct (is_some (find _ _)), (is_some (find _ _)); cbn; intuition congruence. }
  assert (A2 : forallb (rid_format_declared (get_formats m)) (flat_map rid_formats (rids_of m)) = true <->
               (forall r n, In (ARid r) (m_attribute m) -> In n (rid_formats r) -> format_listed (ml_formats (m_media m)) n)).
  { rewrite forallb_forall.
    assert (Q : forall n, rid_format_declared (get_formats m) n = true <-> format_listed (ml_formats (m_media m)) n).
    { intros n. unfold rid_format_declared, format_listed, get_formats.
      destruct (ml_formats (m_media m)); [apply mem_N_In|apply mem_str_In]. }
    split.
    - intros H r n Hr Hn. apply Q, H. apply in_flat_map. exists r. split; auto. apply in_flat_map.
      exists (ARid r). split; auto. left; auto.
    - intros H n Hn. apply in_flat_map in Hn. destruct Hn as [r [Hr Hn]]. unfold rids_of in Hr.
      apply in_flat_map in Hr. destruct Hr as [a [Ha Hr]]. destruct a; try contradiction.
      destruct Hr as [<-|[]]. apply Q. eapply H; eauto. }
  split.
  - intros H. destruct (_ && _); [discriminate|]. destruct (forallb _ _); [|discriminate]. cbn [negb] in H.
    constructor; [apply A1; auto|apply A2; auto|].
    intros b sc a Hm Hb. pose proof (find_simulcast (m_attribute m)) as F. unfold get_attribute in H.
    destruct (find _ _) as [y|].
    + assert (Y : exists sc', y = ASimulcast sc') by (destruct y; try contradiction; eauto).
      destruct Y as [s ->]. destruct F as [b' [a' [F1 F2]]].
      assert (ASimulcast sc = ASimulcast s) as EE.
      { eapply (first_unique (fun x => sdp_name x = "simulcast"%string)); [rewrite <- Hm; exact F1| | | |]; auto;
          intros z Hz Hn; [apply Hb|apply F2]; exists z; auto. }
      inv EE. clear F1 F2. unfold rids_of in H.
      destruct (defined_rids (sim_receive s) _) eqn:D1; [|discriminate]. cbn [negb] in H.
      destruct (defined_rids (sim_send s) _) eqn:D2; [|discriminate].
      split; [exact (proj1 (defined_rids_spec _ _ _) D2)|exact (proj1 (defined_rids_spec _ _ _) D1)].
    + exfalso. apply F. exists (ASimulcast sc). split; auto. rewrite Hm. apply in_app_iff. right. left. auto.
  - intros [R1 R2 R3]. apply A1 in R1. apply A2 in R2. rewrite R1, R2. cbn [negb].
    pose proof (find_simulcast (m_attribute m)) as F. unfold get_attribute.
    destruct (find _ _) as [y|]; [|auto].
    assert (Y : exists sc', y = ASimulcast sc') by (destruct y; try contradiction; eauto).
    destruct Y as [s ->]. destruct F as [b [a [F1 F2]]].
    destruct (R3 b s a F1 F2) as [D1 D2]. apply (proj2 (defined_rids_spec _ _ _)) in D1, D2. unfold rids_of. rewrite D1, D2. auto.
Qed.
Lemma check_all_ok : forall l, sanity_check_all l = Ok tt <-> Forall media_rules l.
Proof.
  induction l as [|m l IH]; cbn [sanity_check_all]; [split; auto|].
  split.
  - intros H. apply bind_ok in H. destruct H as [[] [H1 H2]]. constructor; [apply check_media_ok; auto|apply IH; auto].
  - intros H. inv H. rewrite (proj2 (check_media_ok m)) by auto. cbn [bind]. apply IH; auto.
Qed.
Lemma sanity_ok : forall s, sanity_check s = Ok tt <-> structural s.
Proof.
  intros s. unfold sanity_check, seq_error. cbv zeta.
  assert (A1 : is_some (s_timing s) = true <-> present (s_timing s)) by apply is_some_present.
  assert (A2 : negb (forallb (fun m => is_some (m_connection m)) (s_media s)) && negb (is_some (s_connection s)) = false <->
     (present (s_connection s) \/ Forall (fun m => present (m_connection m)) (s_media s))).
  { rewrite <- is_some_present.
    assert (Q : forallb (fun m => is_some (m_connection m)) (s_media s) = true <-> Forall (fun m => present (m_connection m)) (s_media s)).
    { rewrite forallb_forall, Forall_forall. split; intros H x Hx; apply is_some_present; auto. }
    rewrite <- Q. clear Q. destruct (forallb _ _), (is_some (s_connection s)); cbn; split; intros H; auto; try discriminate.
    destruct H; discriminate. }
  assert (A3 : is_some (session_get_attribute TExtmap s) && existsb (fun m => is_some (get_attribute TExtmap m)) (s_media s) = false <->
     ~ (has "extmap" (s_attribute s) /\ Exists (fun m => has "extmap" (m_attribute m)) (s_media s))).
  { unfold session_get_attribute, get_attribute. pose proof (find_has TExtmap (s_attribute s)) as F. cbn [type_name] in F.
    assert (Q : existsb (fun m => is_some (find (fun a => attr_type_eqb (attr_type_of a) TExtmap) (m_attribute m))) (s_media s) = true
                <-> Exists (fun m => has "extmap" (m_attribute m)) (s_media s)).
    { rewrite existsb_exists, Exists_exists. split; intros [x [H1 H2]]; exists x; (split; [auto|]);
        apply (find_has TExtmap) in H2; auto. }
    rewrite <- F, <- Q. clear F Q. destruct (is_some (find _ _)), (existsb _ _); cbn; intuition congruence. }
  split.
  - intros H. destruct (is_some (s_timing s)) eqn:K1; [|discriminate]. cbn [negb] in H.
    destruct (_ && _) eqn:K2 in H; [discriminate|]. destruct (_ && _) eqn:K3 in H; [discriminate|].
    constructor; [apply A1; auto|apply A2; auto|apply A3; auto|apply check_all_ok; auto].
  - intros [R1 R2 R3 R4]. apply A1 in R1. apply A2 in R2. apply A3 in R3. apply check_all_ok in R4.
    rewrite R1, R2, R3. cbn [negb]. auto.
Qed.
Lemma sanity_err : forall s e, sanity_check s = Err e -> exists msg, e = PSequence msg 0.
Proof.
  intros s e. unfold sanity_check, seq_error. cbv zeta.
  destruct (negb _); [intros H; inv H; eauto|]. destruct (_ && _); [intros H; inv H; eauto|].
  destruct (_ && _); [intros H; inv H; eauto|].
  induction (s_media s) as [|m l IH]; cbn [sanity_check_all]; [discriminate|].
  destruct (sanity_check_media m) eqn:K; cbn [bind]; auto; [|discriminate].
  intros H. inv H. unfold sanity_check_media, seq_error in K. cbv zeta in K.
  destruct (_ && _); [inv K; eauto|]. destruct (negb _); [inv K; eauto|].
  destruct (get_attribute TSimulcast m) as [[]|]; try discriminate.
  destruct (negb _); [inv K; eauto|]. destruct (negb _); [inv K; eauto|]. discriminate.
Qed.

(** ** The whole vector *)
Lemma split_at_media_app : forall (head rest : list sdp_line),
  Forall session_item (map l_type head) ->
  (rest = [] \/ exists x r ml, rest = x :: r /\ l_type x = TyMedia ml) ->
  split_at_media (head ++ rest) = (head, rest).
Proof.
  induction head as [|x head IH]; intros rest F R; cbn [app split_at_media map] in *.
  - destruct R as [->|[x [r [ml [-> K]]]]]; auto. cbn [split_at_media]. unfold is_media_line. rewrite K. auto.
  - inv F. unfold is_media_line. destruct (l_type x) eqn:K; try contradiction; rewrite IH; auto.
Qed.
Lemma split_at_media_eq : forall l a b, split_at_media l = (a, b) -> l = a ++ b.
Proof.
  induction l as [|x l IH]; intros a b H; cbn [split_at_media] in H; [inv H; auto|].
  destruct (is_media_line x); [inv H; auto|]. destruct (split_at_media l) as [a' b']. inv H.
  cbn [app]. f_equal. auto.
Qed.

Definition assembled (v : N) (o : origin) (name : str) (head : list sdp_type) (secs : list section) : session :=
  {| s_version := v; s_origin := o;
     s_session := if is_empty (trim name) then None else Some (trim name);
     s_connection := last_of (connections head); s_bandwidth := bandwidths head;
     s_timing := last_of (timings head); s_attribute := attributes head;
     s_media := map section_media secs; s_warnings := [] |}.
Lemma Assembles_iff : forall l s, s_warnings s = [] ->
  (Assembles l s <-> exists v o name head secs,
    l = TyVersion v :: TyOrigin o :: TySession name :: head ++ flat_map section_lines secs /\
    Forall session_item head /\ Forall section_ok secs /\ s = assembled v o name head secs).
Proof.
  intros l s W. split.
  - intros [name [head [secs [H1 [H2 [H3 [H4 [H5 [H6 [H7 [H8 H9]]]]]]]]]]].
    exists (s_version s), (s_origin s), name, head, secs. split; auto. split; auto. split; auto.
    apply session_name_unique in H2. destruct s; cbn in *. unfold assembled. congruence.
  - intros [v [o [name [head [secs [H1 [H3 [H4 ->]]]]]]]]. exists name, head, secs. cbn.
    repeat split; auto. apply session_name_spec.
Qed.

Lemma vector_good : forall v o name head secs (l : list sdp_line),
  map l_type l = TyVersion v :: TyOrigin o :: TySession name :: head ++ flat_map section_lines secs ->
  Forall session_item head -> Forall section_ok secs -> (4 <= List.length l)%nat ->
  parse_sdp_vector l = (_ <- sanity_check (assembled v o name head secs) ;; Ok (assembled v o name head secs)).
Proof.
  intros v o name head secs l H F1 F2 L. unfold parse_sdp_vector.
  replace (Nat.ltb (List.length l) 4) with false by (symmetry; apply Nat.ltb_ge; auto).
  destruct l as [|l0 l]; [discriminate|]. cbn [map] in H. injection H as K0 H.
  destruct l as [|l1 l]; [discriminate|]. cbn [map] in H. injection H as K1 H.
  destruct l as [|l2 l]; [discriminate|]. cbn [map] in H. injection H as K2 H.
  apply map_eq_app in H. destruct H as [lh [lt [-> [Hh Ht]]]].
  cbn [idx nth_error bind]. rewrite K0. cbn [idx nth_error bind]. rewrite K1. cbn [idx nth_error bind]. rewrite K2.
  cbn [skipn]. cbv zeta.
  rewrite split_at_media_app; [|rewrite Hh; auto|].
  2: { destruct secs as [|[ml b] secs]; cbn in Ht; [left; destruct lt; [auto|discriminate]|right].
       destruct lt as [|x r]; [discriminate|]. cbn in Ht. injection Ht as Hx _. exists x, r, ml. auto. }
  assert (S0 : keep (parse_session_vector (session_new v o name) lh) = Ok (assembled v o name head [])).
  { rewrite session_vector_ok by (rewrite Hh; auto). cbn [keep]. f_equal. rewrite Hh.
    unfold session_plus, session_new, assembled. cbn.
    destruct (last_of (connections head)), (last_of (timings head)); auto. }
  rewrite S0. destruct lt as [|x lt].
  - destruct secs; [|destruct s; discriminate]. cbn [bind]. destruct (sanity_check _); auto.
  - destruct secs as [|[ml b] secs]; [discriminate|]. cbn [map flat_map section_lines fst snd app] in Ht.
    injection Ht as Hx Ht. cbn [bind parse_media_vector]. rewrite Hx.
    apply map_eq_app in Ht. destruct Ht as [b1 [b2 [-> [Hb1 Hb2]]]]. inv F2. destruct H1 as [G1 G2]. cbn [fst snd] in *.
    rewrite media_loop_body by (auto; unfold conns; cbn; auto). rewrite (media_loop_sections secs) by auto.
    cbn [bind app]. unfold session_extend_media. cbn. destruct (sanity_check _); auto.
Qed.

Lemma assembly : forall (l : list sdp_line) s,
  parse_sdp_vector l = Ok s <->
  (4 <= List.length l)%nat /\ Assembles (map l_type l) s /\ structural s /\ s_warnings s = [].
Proof.
  intros l s. split.
  - intros H.
    assert (X : exists v o name head secs, (4 <= List.length l)%nat /\
      map l_type l = TyVersion v :: TyOrigin o :: TySession name :: head ++ flat_map section_lines secs /\
      Forall session_item head /\ Forall section_ok secs).
    { unfold parse_sdp_vector in H. destruct (Nat.ltb_spec (List.length l) 4); [discriminate|].
      destruct l as [|l0 l]; [cbn in *; lia|]. destruct l as [|l1 l]; [cbn in *; lia|]. destruct l as [|l2 l]; [cbn in *; lia|].
      cbn [idx nth_error bind skipn] in H. destruct (l_type l0) eqn:K0; try discriminate.
      cbn [idx nth_error bind skipn] in H. destruct (l_type l1) eqn:K1; try discriminate.
      cbn [idx nth_error bind skipn] in H. destruct (l_type l2) eqn:K2; try discriminate. cbv zeta in H.
      destruct (split_at_media l) as [lh lt] eqn:SP. pose proof (split_at_media_eq _ _ _ SP) as EQ.
      assert (S1 : exists s1, parse_session_vector (session_new v o s0) lh = (s1, Ok tt)).
      { destruct (parse_session_vector (session_new v o s0) lh) as [s1 [[]| |]]; eauto; destruct lt; cbn in H; discriminate. }
      destruct S1 as [s1 S1]. rewrite S1 in H. destruct (session_vector_inv _ _ _ S1) as [F1 _].
      destruct lt as [|x lt].
      - exists v, o, s0, (map l_type lh), []. split; auto. cbn [map flat_map]. rewrite K0, K1, K2.
        subst l. rewrite !app_nil_r. repeat split; auto.
      - pose proof (split_at_media_head _ _ _ _ SP) as M. unfold is_media_line in M.
        destruct (l_type x) eqn:Kx; try discriminate. cbn [keep bind parse_media_vector] in H. rewrite Kx in H.
        destruct (media_loop [] (media_new m) lt) eqn:ML; try discriminate.
        destruct (media_loop_inv _ _ _ _ ML) as [body [secs [H1 [[H2 H3] [H4 H5]]]]].
        exists v, o, s0, (map l_type lh), ((m, body) :: secs). split; auto. split; [|split; auto].
        + cbn [map flat_map section_lines fst snd]. rewrite K0, K1, K2. subst l. rewrite map_app. cbn [map].
          rewrite Kx, H1. reflexivity.
        + constructor; auto. split; auto. }
    destruct X as [v [o [name [head [secs [L [H1 [F1 F2]]]]]]]].
    rewrite (vector_good v o name head secs) in H by auto. apply bind_ok in H. destruct H as [[] [H2 H3]]. inv H3.
    split; auto. split; [|split; [apply sanity_ok; auto|reflexivity]].
    apply Assembles_iff; [reflexivity|]. exists v, o, name, head, secs. auto.
  - intros [L [A [S W]]]. apply Assembles_iff in A; auto.
    destruct A as [v [o [name [head [secs [H1 [F1 [F2 ->]]]]]]]].
    rewrite (vector_good v o name head secs) by auto. apply sanity_ok in S. rewrite S. reflexivity.
Qed.
Lemma assembly_structural : forall (l : list sdp_line) s, s_warnings s = [] ->
  (4 <= List.length l)%nat -> Assembles (map l_type l) s -> ~ structural s ->
  exists m, parse_sdp_vector l = Err (PSequence m 0).
Proof.
  intros l s W L A S. apply Assembles_iff in A; auto.
  destruct A as [v [o [name [head [secs [H1 [F1 [F2 ->]]]]]]]].
  rewrite (vector_good v o name head secs) by auto.
  destruct (sanity_check _) as [[]|e|] eqn:K; cbn [bind].
  - apply sanity_ok in K. contradiction.
  - destruct (sanity_err _ _ K) as [m ->]. eauto.
  - apply sanity_np in K. contradiction.
Qed.
Lemma vector_err : forall (l : list sdp_line) e, parse_sdp_vector l = Err e -> exists m n, e = PSequence m n.
Proof.
  intros l e H. unfold parse_sdp_vector in H.
  destruct (Nat.ltb_spec (List.length l) 4); [inv H; eauto|].
  destruct l as [|l0 l]; [cbn in *; lia|]. destruct l as [|l1 l]; [cbn in *; lia|]. destruct l as [|l2 l]; [cbn in *; lia|].
  cbn [idx nth_error bind skipn] in H. destruct (l_type l0) eqn:K0; try (inv H; eauto; fail).
  cbn [idx nth_error bind skipn] in H. destruct (l_type l1) eqn:K1; try (inv H; eauto; fail).
  cbn [idx nth_error bind skipn] in H. destruct (l_type l2) eqn:K2; try (inv H; eauto; fail). cbv zeta in H.
  destruct (split_at_media l) as [lh lt] eqn:SP.
  destruct (parse_session_vector (session_new v o s) lh) as [s1 [[]|e1|]] eqn:S1; cbn [keep bind] in H.
  - destruct lt as [|x lt].
    + cbn [bind] in H. destruct (sanity_check s1) eqn:K; cbn [bind] in H; inv H.
      destruct (sanity_err _ _ K) as [m ->]. eauto.
    + cbn [parse_media_vector] in H. destruct (l_type x); try (inv H; eauto; fail).
      destruct (media_loop [] (media_new m) lt) eqn:ML; cbn [bind] in H; try (inv H; fail).
      * destruct (sanity_check _) eqn:K in H; cbn [bind] in H; inv H.
        destruct (sanity_err _ _ K) as [msg ->]. eauto.
      * inv H. eapply media_loop_err; eauto.
  - destruct lt; cbn [bind] in H; inv H; eapply session_vector_err; eauto.
  - destruct lt; cbn [bind] in H; inv H.
Qed.

(** The first line that is out of place is reported (C07, C09). *)
Lemma bad_session_line : forall v o name (l : list sdp_line) (l0 l1 l2 x : sdp_line) head rest,
  l_type l0 = TyVersion v -> l_type l1 = TyOrigin o -> l_type l2 = TySession name ->
  l = l0 :: l1 :: l2 :: head ++ x :: rest -> Forall session_item (map l_type head) ->
  ~ session_item (l_type x) -> (forall m, l_type x <> TyMedia m) ->
  exists m, parse_sdp_vector l = Err (PSequence m (l_number x)).
Proof.
  intros v o name l l0 l1 l2 x head rest K0 K1 K2 -> F B NM. unfold parse_sdp_vector.
  replace (Nat.ltb _ 4) with false by (symmetry; apply Nat.ltb_ge; cbn; rewrite app_length; cbn; lia).
  cbn [idx nth_error bind skipn]. rewrite K0. cbn [idx nth_error bind skipn]. rewrite K1.
  cbn [idx nth_error bind skipn]. rewrite K2. cbv zeta.
  destruct (split_at_media (head ++ x :: rest)) as [lh lt] eqn:SP.
  assert (X : exists r, lh = head ++ x :: r).
  { revert lh lt SP. clear K0 K1 K2. induction head as [|y head IH]; intros lh lt SP; cbn [app split_at_media] in SP.
    - replace (is_media_line x) with false in SP
        by (unfold is_media_line; destruct (l_type x); auto; exfalso; eapply NM; eauto).
      destruct (split_at_media rest) as [a b]. inv SP. exists a. auto.
    - cbn [map] in F. inv F. replace (is_media_line y) with false in SP
        by (unfold is_media_line; destruct (l_type y); auto; contradiction).
      destruct (split_at_media (head ++ x :: rest)) as [a b] eqn:Q. inv SP.
      destruct (IH H2 _ _ eq_refl) as [r ->]. exists r. auto. }
  destruct X as [r ->]. destruct (session_vector_bad head (session_new v o name) x r F B) as [s' [m H]].
  rewrite H. cbn [keep bind]. destruct lt; cbn [bind]; eauto.
Qed.
Lemma bad_media_line : forall v o name (l : list sdp_line) (l0 l1 l2 y x : sdp_line) head secs ss cur rest ml,
  l_type l0 = TyVersion v -> l_type l1 = TyOrigin o -> l_type l2 = TySession name ->
  l = l0 :: l1 :: l2 :: head ++ secs ++ y :: cur ++ x :: rest ->
  Forall session_item (map l_type head) ->
  map l_type secs = flat_map section_lines ss -> Forall section_ok ss ->
  l_type y = TyMedia ml -> section_ok (ml, map l_type cur) ->
  bad_after (media_new ml) (map l_type cur) (l_type x) ->
  exists m, parse_sdp_vector l = Err (PSequence m (l_number x)).
Proof.
  intros v o name l l0 l1 l2 y x head secs ss cur rest ml K0 K1 K2 -> F Hs Fs Ky G B. unfold parse_sdp_vector.
  replace (Nat.ltb _ 4) with false
    by (symmetry; apply Nat.ltb_ge; cbn; rewrite !app_length; cbn; rewrite app_length; cbn; lia).
  cbn [idx nth_error bind skipn]. rewrite K0. cbn [idx nth_error bind skipn]. rewrite K1.
  cbn [idx nth_error bind skipn]. rewrite K2. cbv zeta.
  rewrite split_at_media_app; auto.
  2: { right. destruct ss as [|[m0 b] ss]; cbn in Hs.
       - destruct secs; [|discriminate]. cbn. eauto.
       - destruct secs as [|z secs]; [discriminate|]. cbn in Hs. injection Hs as Hz _. cbn. eauto. }
  rewrite session_vector_ok by auto. cbn [keep bind].
  assert (GB : good_body (media_new ml) (map l_type cur)) by (destruct G; split; auto).
  destruct ss as [|[m0 b] ss].
  - destruct secs; [|discriminate]. cbn [app parse_media_vector]. rewrite Ky.
    destruct (media_loop_bad cur [] (media_new ml) x rest GB B) as [m H]. rewrite H. cbn [bind]. eauto.
  - destruct secs as [|z secs]; [discriminate|]. cbn [map flat_map section_lines fst snd app] in Hs.
    injection Hs as Hz Hs. apply map_eq_app in Hs. destruct Hs as [b1 [b2 [-> [Hb1 Hb2]]]].
    inv Fs. destruct H1 as [F1 F2]. cbn [fst snd] in *.
    cbn [app parse_media_vector]. rewrite Hz. rewrite <- app_assoc.
    rewrite media_loop_body by (auto; unfold conns; cbn; auto).
    rewrite (media_loop_app_secs ss) with (ml := ml) by auto.
    match goal with |- context [media_loop ?d _ (cur ++ _)] =>
      destruct (media_loop_bad cur d (media_new ml) x rest GB B) as [m H] end.
    rewrite H. cbn [bind]. eauto.
Qed.

End WithExt.

(** * Lemmas for C78: lines that no rule about the whole session is about *)
From Coq Require Import List NArith ZArith Bool Ascii String Lia.
From Verif Require Import Str Num Net Types Ext Show AttrParse Media Session StrLemmas SpecApi SpecDoc SpecOrder
  SpecVal SpecGrammar SpecRfc SpecRfc2 SpecFree PDoc PDoc2 PDoc3 POrder.
Import ListNotations.
Open Scope N_scope.
Open Scope list_scope.

(** ** Where the place is *)
Lemma place0 : forall secs P Q head, P ++ Q = head ++ flat_map section_lines secs ->
  (exists h2, head = P ++ h2 /\ Q = h2 ++ flat_map section_lines secs) \/
  (exists s1 m b1 b2 s2, secs = s1 ++ (m, b1 ++ b2) :: s2 /\
     P = head ++ flat_map section_lines s1 ++ TyMedia m :: b1 /\ Q = b2 ++ flat_map section_lines s2).
Proof.
  induction secs as [|[m b] secs IH]; intros P Q head K.
  - cbn [flat_map] in *. rewrite app_nil_r in K. left. exists Q. split; [symmetry; exact K | rewrite app_nil_r; reflexivity].
  - apply app_eq_app in K. destruct K as (l & [[K1 K2]|[K1 K2]]).
    + destruct l as [|y l].
      * rewrite app_nil_r in K1. subst P. cbn [app] in K2. subst Q. left. exists []. split; [rewrite app_nil_r; reflexivity | reflexivity].
      * cbn [flat_map section_lines fst snd app] in K2. injection K2 as <- K2. symmetry in K2.
        destruct (IH l Q b K2) as [(h2 & -> & ->)|(s1 & m' & b1 & b2 & s2 & -> & -> & ->)].
        -- right. exists [], m, l, h2, secs. split; [reflexivity|]. split; [exact K1 | reflexivity].
        -- right. exists ((m, b) :: s1), m', b1, b2, s2. split; [reflexivity|]. split; [|reflexivity].
           rewrite K1. cbn [flat_map section_lines fst snd app]. rewrite <- app_assoc. reflexivity.
    + left. exists l. split; [exact K1 | exact K2].
Qed.
Lemma place : forall secs P X Q head, P ++ X ++ Q = head ++ flat_map section_lines secs -> media_free X ->
  (exists h2, head = P ++ X ++ h2 /\ Q = h2 ++ flat_map section_lines secs) \/
  (exists s1 m b1 b2 s2, secs = s1 ++ (m, b1 ++ X ++ b2) :: s2 /\
     P = head ++ flat_map section_lines s1 ++ TyMedia m :: b1 /\ Q = b2 ++ flat_map section_lines s2).
Proof. intros secs P [|x X] Q head K F; [exact (place0 secs P Q head K) | exact (locate secs P x X Q head K F)]. Qed.
Definition is_past (t : sdp_type) : Prop := is_name t \/ is_media t.
Lemma starts : forall P Q s name rest, Exists is_past P ->
  P ++ Q = TyVersion (s_version s) :: TyOrigin (s_origin s) :: TySession name :: rest ->
  exists P3, P = TyVersion (s_version s) :: TyOrigin (s_origin s) :: TySession name :: P3.
Proof.
  intros P Q s name rest N L. apply Exists_exists in N. destruct N as (y & I & N).
  destruct P as [|p0 [|p1 [|p2 P]]].
  - destruct I.
  - destruct I as [->|[]]. injection L as -> L. destruct N as [(? & N)|(? & N)]; discriminate N.
  - injection L as -> -> L. destruct I as [<-|[<-|[]]]; destruct N as [(? & N)|(? & N)]; discriminate N.
  - injection L as -> -> -> L. exists P. reflexivity.
Qed.

(** ** One item more or less *)
Lemma has_more : forall n p x q, has n (p ++ q) -> has n (p ++ x :: q).
Proof. intros n p x q (a & I & H). exists a. split; [|exact H]. apply in_app_iff in I. apply in_app_iff. cbn. tauto. Qed.
Lemma has_less : forall n p x q, sdp_name x <> n -> has n (p ++ x :: q) -> has n (p ++ q).
Proof.
  intros n p x q D (a & I & H). exists a. split; [|exact H]. apply in_app_iff in I. apply in_app_iff.
  destruct I as [I|[->|I]]; [left; exact I | contradiction | right; exact I].
Qed.
Lemma rid_more : forall p x q d i, rid_defined (p ++ q) d i -> rid_defined (p ++ x :: q) d i.
Proof. intros p x q d i (r & I & H). exists r. split; [|exact H]. apply in_app_iff in I. apply in_app_iff. cbn. tauto. Qed.
Lemma rid_less : forall p x q d i, sdp_name x <> "rid"%string -> rid_defined (p ++ x :: q) d i -> rid_defined (p ++ q) d i.
Proof.
  intros p x q d i D (r & I & H). exists r. split; [|exact H]. apply in_app_iff in I. apply in_app_iff.
  destruct I as [I|[->|I]]; [left; exact I | destruct (D eq_refl) | right; exact I].
Qed.
Lemma sims_less : forall p x q, sdp_name x <> "simulcast"%string -> sims (p ++ x :: q) = sims (p ++ q).
Proof.
  intros p x q D. unfold sims. rewrite !flat_map_app. f_equal. cbn [flat_map]. destruct x; try reflexivity. destruct (D eq_refl).
Qed.
Lemma rules_more : forall m m' p x q, m_media m' = m_media m -> m_attribute m = p ++ q -> m_attribute m' = p ++ x :: q ->
  ~ In (sdp_name x) break_added -> media_rules m -> media_rules m'.
Proof.
  intros m m' p x q Q K K' D [R1 R2 R3]. unfold break_added in D. cbn [In] in D. rewrite K in *. split.
  - rewrite K'. intro H. apply has_more, R1. apply has_less in H; [exact H|]. intro Z. rewrite Z in D. tauto.
  - rewrite K', Q. intros r n I1 I2. apply (R2 r n); [|exact I2]. apply in_app_iff in I1. apply in_app_iff.
    destruct I1 as [I1|[->|I1]]; [left; exact I1 | exfalso; apply D; right; left; reflexivity | right; exact I1].
  - intros before sc after Z N. pose proof (first_simulcast _ _ _ _ Z N) as H. rewrite K' in H.
    rewrite sims_less in H by (intro Y; rewrite Y in D; tauto).
    destruct (simulcast_first _ _ H) as (b & c & Z' & N'). destruct (R3 b sc c Z' N') as [A B]. rewrite K'.
    split; intros v i I1 I2; apply rid_more; [exact (A v i I1 I2) | exact (B v i I1 I2)].
Qed.
Lemma rules_less : forall m m' p x q, m_media m' = m_media m -> m_attribute m = p ++ q -> m_attribute m' = p ++ x :: q ->
  ~ In (sdp_name x) break_removed -> media_rules m' -> media_rules m.
Proof.
  intros m m' p x q Q K K' D [R1 R2 R3]. unfold break_removed in D. cbn [In] in D. rewrite K' in *. split.
  - rewrite K. intro H. apply has_more with (x := x) in H. apply R1 in H. apply has_less in H; [exact H|]. intro Z. rewrite Z in D. tauto.
  - rewrite K, <- Q. intros r n I1 I2. apply (R2 r n); [|exact I2]. apply in_app_iff in I1. apply in_app_iff. cbn. tauto.
  - intros before sc after Z N. pose proof (first_simulcast _ _ _ _ Z N) as H. rewrite K in H.
    rewrite <- (sims_less p x q) in H by (intro Y; rewrite Y in D; tauto).
    destruct (simulcast_first _ _ H) as (b & c & Z' & N'). destruct (R3 b sc c Z' N') as [A B]. rewrite K.
    split; intros v i I1 I2; (eapply rid_less; [|first [exact (A v i I1 I2) | exact (B v i I1 I2)]]); intro Y; rewrite Y in D; tauto.
Qed.
Lemma same_rules : forall m m', m_media m' = m_media m -> m_attribute m' = m_attribute m -> media_rules m <-> media_rules m'.
Proof.
  assert (H : forall m m', m_media m' = m_media m -> m_attribute m' = m_attribute m -> media_rules m -> media_rules m').
  { intros m m' Q K [R1 R2 R3]. split; rewrite ?K, ?Q; assumption. }
  intros m m' Q K. split; apply H; congruence.
Qed.
Lemma media_more_rules : forall t m m', media_more t m m' -> outside break_added t -> media_rules m -> media_rules m'.
Proof.
  intros t m m' (Q & _ & _ & A) O R. destruct t as [a| | | | | | |]; try (exfalso; exact O); cbn [a_media_attribute one_more outside] in *.
  - destruct (String.eqb (sdp_name a) "dtls-message"); cbn [one_more] in A; [apply (same_rules m m' Q A), R|].
    destruct A as (p & q & A1 & A2). exact (rules_more m m' p a q Q A1 A2 O R).
  - apply (same_rules m m' Q A), R.
Qed.
Lemma media_less_rules : forall t m m', media_more t m m' -> outside break_removed t -> media_rules m' -> media_rules m.
Proof.
  intros t m m' (Q & _ & _ & A) O R. destruct t as [a| | | | | | |]; try (exfalso; exact O); cbn [a_media_attribute one_more outside] in *.
  - destruct (String.eqb (sdp_name a) "dtls-message"); cbn [one_more] in A; [apply (same_rules m m' Q A), R|].
    destruct A as (p & q & A1 & A2). exact (rules_less m m' p a q Q A1 A2 O R).
  - apply (same_rules m m' Q A), R.
Qed.
Lemma media_more_extmap : forall t m m', media_more t m m' -> outside break_added t ->
  has "extmap" (m_attribute m') -> has "extmap" (m_attribute m).
Proof.
  intros t m m' (_ & _ & _ & A) O H. destruct t as [a| | | | | | |]; try (exfalso; exact O); cbn [a_media_attribute one_more outside] in *.
  - destruct (String.eqb (sdp_name a) "dtls-message"); cbn [one_more] in A; [congruence|].
    destruct A as (p & q & A1 & A2). rewrite A1. rewrite A2 in H. apply has_less in H; [exact H|].
    intro Z. apply O. rewrite Z. cbn. tauto.
  - congruence.
Qed.
Lemma media_less_extmap : forall t m m', media_more t m m' -> has "extmap" (m_attribute m) -> has "extmap" (m_attribute m').
Proof.
  intros t m m' (_ & _ & _ & A) H. destruct (a_media_attribute t) as [a|]; cbn [one_more] in A; [|congruence].
  destruct A as (p & q & A1 & A2). rewrite A2. rewrite A1 in H. apply has_more, H.
Qed.
Lemma Forall_mid : forall {A} (P : A -> Prop) p x y q, Forall P (p ++ x :: q) -> (P x -> P y) -> Forall P (p ++ y :: q).
Proof.
  intros A P p x y q H K. apply Forall_app in H. destruct H as [H1 H2]. inversion H2; subst. apply Forall_app. split; [exact H1|]. constructor; auto.
Qed.
Lemma Exists_mid : forall {A} (P : A -> Prop) p x y q, Exists P (p ++ x :: q) -> (P x -> P y) -> Exists P (p ++ y :: q).
Proof.
  intros A P p x y q H K. apply Exists_app in H. apply Exists_app. destruct H as [H|H]; [left; exact H|]. right. inversion H; subst; [left | right]; auto.
Qed.
Lemma structural_more : forall lv t s s', session_more lv t s s' -> outside break_added t -> structural s -> structural s'.
Proof.
  intros lv t s s' (_ & _ & _ & T & C & _ & X) O [R1 R2 R3 R4]. destruct lv.
  - destruct X as (_ & A & p & m & m' & q & M & M' & X). rewrite M in *. split; rewrite ?T, ?C, ?A, ?M'.
    + exact R1.
    + destruct R2 as [R2|R2]; [left; exact R2 | right]. apply (Forall_mid _ _ m); [exact R2|]. destruct X as (_ & X & _). rewrite X. auto.
    + intros [H1 H2]. apply R3. split; [exact H1|]. apply (Exists_mid _ _ m'); [exact H2|]. exact (media_more_extmap t m m' X O).
    + apply (Forall_mid _ _ m); [exact R4|]. exact (media_more_rules t m m' X O).
  - destruct X as (M & B & A). split; rewrite ?T, ?C, ?M; [exact R1 | exact R2 | | exact R4].
    intros [H1 H2]. apply R3. split; [|exact H2]. destruct t as [a| | | | | | |]; try (exfalso; exact O); cbn [an_attribute one_more] in A; [|congruence].
    destruct A as (p & q & A1 & A2). rewrite A1. rewrite A2 in H1. apply has_less in H1; [exact H1|]. intro Z. apply O. rewrite Z. cbn. tauto.
Qed.
Lemma structural_less : forall lv t s s', session_more lv t s s' -> outside break_removed t -> structural s' -> structural s.
Proof.
  intros lv t s s' (_ & _ & _ & T & C & _ & X) O [R1 R2 R3 R4]. destruct lv.
  - destruct X as (_ & A & p & m & m' & q & M & M' & X). rewrite M', T, C, A in *. split; rewrite ?M.
    + exact R1.
    + destruct R2 as [R2|R2]; [left; exact R2 | right]. apply (Forall_mid _ _ m'); [exact R2|]. destruct X as (_ & X & _). rewrite X. auto.
    + intros [H1 H2]. apply R3. split; [exact H1|]. apply (Exists_mid _ _ m); [exact H2|]. exact (media_less_extmap t m m' X).
    + apply (Forall_mid _ _ m'); [exact R4|]. exact (media_less_rules t m m' X O).
  - destruct X as (M & B & A). rewrite T, C, M in *. split; [exact R1 | exact R2 | | exact R4].
    intros [H1 H2]. apply R3. split; [|exact H2]. destruct (an_attribute t) as [a|]; cbn [one_more] in A; [|congruence].
    destruct A as (p & q & A1 & A2). rewrite A2. rewrite A1 in H1. apply has_more, H1.
Qed.
(** ** Sections with a line more *)
Definition plain_item (t : sdp_type) : Prop := match t with TyBandwidth _ | TyAttribute _ => True | _ => False end.
Lemma outside_plain : forall names t, outside names t -> plain_item t.
Proof. intros names [| | | | | | |] H; try exact I; exact H. Qed.
Lemma plain_free : forall t, plain_item t -> ~ is_media t.
Proof. intros t H (m & ->). exact H. Qed.
Lemma bw_more : forall t p q, plain_item t -> one_more (a_bandwidth t) (bandwidths (p ++ q)) (bandwidths (p ++ t :: q)).
Proof.
  intros t p q H. unfold bandwidths. rewrite !flat_map_app. destruct t; try destruct H; cbn [a_bandwidth one_more flat_map app]; [reflexivity|].
  eexists. eexists. split; reflexivity.
Qed.
Lemma attr_more : forall t p q, plain_item t -> one_more (an_attribute t) (attributes (p ++ q)) (attributes (p ++ t :: q)).
Proof.
  intros t p q H. unfold attributes. rewrite !flat_map_app. destruct t; try destruct H; cbn [an_attribute one_more flat_map app]; [|reflexivity].
  eexists. eexists. split; reflexivity.
Qed.
Lemma media_attr_more : forall t p q, plain_item t -> one_more (a_media_attribute t)
  (filter (SpecApi.not_named "dtls-message") (attributes (p ++ q))) (filter (SpecApi.not_named "dtls-message") (attributes (p ++ t :: q))).
Proof.
  intros t p q H. unfold attributes. rewrite !flat_map_app, !filter_app. destruct t as [a| | | | | | |]; try destruct H; cbn [a_media_attribute flat_map app]; [|reflexivity].
  cbn [filter]. assert (Q : SpecApi.not_named "dtls-message" a = negb (String.eqb (sdp_name a) "dtls-message")) by reflexivity. rewrite Q.
  destruct (String.eqb (sdp_name a) "dtls-message"); cbn [negb one_more]; [reflexivity|]. eexists. eexists. split; reflexivity.
Qed.
Lemma conn_same : forall t p q, plain_item t -> connections (p ++ t :: q) = connections (p ++ q).
Proof. intros t p q H. unfold connections. rewrite !flat_map_app. destruct t; try destruct H; reflexivity. Qed.
Lemma time_same : forall t p q, plain_item t -> timings (p ++ t :: q) = timings (p ++ q).
Proof. intros t p q H. unfold timings. rewrite !flat_map_app. destruct t; try destruct H; reflexivity. Qed.
Lemma section_more : forall m t p q, plain_item t -> media_more t (section_media (m, p ++ q)) (section_media (m, p ++ t :: q)).
Proof.
  intros m t p q H. unfold media_more, section_media. cbn [m_media m_connection m_bandwidth m_attribute fst snd].
  split; [reflexivity|]. split; [rewrite conn_same by exact H; reflexivity|]. split; [apply bw_more, H | apply media_attr_more, H].
Qed.
Lemma ok_more : forall m t p q, plain_item t -> section_ok (m, p ++ t :: q) <-> section_ok (m, p ++ q) /\ media_item t.
Proof.
  intros m t p q H. unfold section_ok. cbn [snd]. rewrite conn_same by exact H. rewrite !Forall_app, Forall_cons_iff. tauto.
Qed.
(** ** Sessions with a line more *)
Definition same_rest (s s' : session) : Prop :=
  s_version s' = s_version s /\ s_origin s' = s_origin s /\ s_session s' = s_session s /\
  s_timing s' = s_timing s /\ s_connection s' = s_connection s.
(** The types of lines before the place. *)
Definition level_of (lv : bool) (P : list sdp_type) : Prop := if lv then Exists is_media P else media_free P.
Lemma assembles_more : forall lv P t Q s w1 w2, plain_item t -> item_at lv t -> Exists is_past P -> level_of lv P ->
  s_warnings s = w1 ++ w2 -> Assembles (P ++ Q) s ->
  exists s', Assembles (P ++ t :: Q) s' /\ session_more lv t s s' /\ s_warnings s' = w1 ++ map bump w2.
Proof.
  intros lv P t Q s w1 w2 H I N Lv W (name & head & secs & L & A1 & A2 & A3 & A4 & A5 & A6 & A7 & A8).
  destruct (starts P Q s name _ N L) as (P3 & ->). cbn [app] in L. injection L as L.
  destruct (place0 secs P3 Q head L) as [(h2 & -> & ->)|(s1 & m & b1 & b2 & s2 & -> & -> & ->)].
  - assert (lv = false) as ->.
    { destruct lv; [|reflexivity]. exfalso. cbn [level_of] in Lv. apply Exists_exists in Lv. destruct Lv as (y & J & m & ->).
      destruct J as [J|[J|[J|J]]]; try discriminate J. rewrite Forall_forall in A2.
      destruct (A2 (TyMedia m)). apply in_app_iff. left. exact J. }
    exists {| s_version := s_version s; s_origin := s_origin s; s_session := s_session s;
      s_connection := s_connection s; s_bandwidth := bandwidths (P3 ++ t :: h2); s_timing := s_timing s;
      s_attribute := attributes (P3 ++ t :: h2); s_media := s_media s; s_warnings := w1 ++ map bump w2 |}.
    split; [|split; [|reflexivity]].
    + exists name, (P3 ++ t :: h2), secs. cbn. split; [rewrite <- !app_assoc; reflexivity|]. split; [exact A1|].
      split; [rewrite Forall_app, Forall_cons_iff; rewrite Forall_app in A2; cbn [item_at] in I; tauto|]. split; [exact A3|].
      split; [reflexivity|]. split; [reflexivity|]. rewrite time_same, conn_same by exact H. auto.
    + unfold session_more. cbn. do 5 (split; [reflexivity|]). split; [exists w1, w2; auto|]. split; [reflexivity|].
      rewrite A4, A5. split; [apply bw_more, H | apply attr_more, H].
  - assert (lv = true) as ->.
    { destruct lv; [reflexivity|]. exfalso. cbn [level_of] in Lv. unfold media_free in Lv. rewrite Forall_forall in Lv. apply (Lv (TyMedia m)); [|exists m; reflexivity].
      do 3 right. apply in_app_iff. right. apply in_app_iff. right. left. reflexivity. }
    exists {| s_version := s_version s; s_origin := s_origin s; s_session := s_session s;
      s_connection := s_connection s; s_bandwidth := s_bandwidth s; s_timing := s_timing s;
      s_attribute := s_attribute s; s_media := map section_media (s1 ++ (m, b1 ++ t :: b2) :: s2); s_warnings := w1 ++ map bump w2 |}.
    split; [|split; [|reflexivity]].
    + exists name, head, (s1 ++ (m, b1 ++ t :: b2) :: s2). cbn [s_version s_origin s_session s_connection s_bandwidth s_timing s_attribute s_media]. split.
      { cbn [app]. do 3 f_equal. exact (mid_section head s1 m b1 [t] b2 s2). }
      split; [exact A1|]. split; [exact A2|].
      split; [apply (Forall_mid _ _ (m, b1 ++ b2)); [exact A3|]; intro O; apply ok_more; [exact H|]; split; [exact O | exact I]|].
      split; [exact A4|]. split; [exact A5|]. split; [exact A6|]. split; [exact A7 | reflexivity].
    + unfold session_more. cbn. do 5 (split; [reflexivity|]). split; [exists w1, w2; auto|]. split; [reflexivity|]. split; [reflexivity|].
      exists (map section_media s1), (section_media (m, b1 ++ b2)), (section_media (m, b1 ++ t :: b2)), (map section_media s2).
      rewrite A8, !map_app. split; [reflexivity|]. split; [reflexivity|]. apply section_more, H.
Qed.
Lemma assembles_less : forall P t Q s' w1 w2, plain_item t ->
  s_warnings s' = w1 ++ map bump w2 -> Assembles (P ++ t :: Q) s' ->
  exists lv s, Assembles (P ++ Q) s /\ session_more lv t s s' /\ s_warnings s = w1 ++ w2 /\ Exists is_name P /\ level_of lv P /\ item_at lv t.
Proof.
  intros P t Q s' w1 w2 H W (name & head & secs & L & A1 & A2 & A3 & A4 & A5 & A6 & A7 & A8).
  assert (NP : exists P3, P = TyVersion (s_version s') :: TyOrigin (s_origin s') :: TySession name :: P3).
  { destruct P as [|p0 [|p1 [|p2 P]]]; cbn [app] in L.
    - injection L as -> _. destruct H.
    - injection L as _ -> _. destruct H.
    - injection L as _ _ -> _. destruct H.
    - injection L as -> -> -> L. exists P. reflexivity. }
  destruct NP as (P3 & ->). cbn [app] in L. injection L as L.
  assert (N : Exists is_name (TyVersion (s_version s') :: TyOrigin (s_origin s') :: TySession name :: P3)).
  { do 2 right. left. exists name. reflexivity. }
  destruct (place secs P3 [t] Q head L) as [(h2 & -> & ->)|(s1 & m & b1 & b2 & s2 & -> & -> & ->)].
  { constructor; [exact (plain_free t H) | constructor]. }
  - exists false, {| s_version := s_version s'; s_origin := s_origin s'; s_session := s_session s';
      s_connection := s_connection s'; s_bandwidth := bandwidths (P3 ++ h2); s_timing := s_timing s';
      s_attribute := attributes (P3 ++ h2); s_media := s_media s'; s_warnings := w1 ++ w2 |}.
    cbn [app] in *. split; [|split; [|split; [reflexivity|]]].
    + exists name, (P3 ++ h2), secs. cbn. split; [rewrite <- !app_assoc; reflexivity|]. split; [exact A1|].
      split; [rewrite Forall_app, Forall_cons_iff in A2; rewrite Forall_app; tauto|]. split; [exact A3|].
      split; [reflexivity|]. split; [reflexivity|]. rewrite time_same, conn_same in * by exact H. auto.
    + unfold session_more. cbn. do 5 (split; [reflexivity|]). split; [exists w1, w2; auto|]. split; [reflexivity|].
      rewrite A4, A5. split; [apply bw_more, H | apply attr_more, H].
    + split; [exact N|]. rewrite Forall_app, Forall_cons_iff in A2. destruct A2 as (B1 & B2 & _). split; [|exact B2].
      do 3 (constructor; [intros (? & Z); discriminate Z|]). eapply Forall_impl; [|exact B1]. intros y Hy (z & ->). exact Hy.
  - exists true, {| s_version := s_version s'; s_origin := s_origin s'; s_session := s_session s';
      s_connection := s_connection s'; s_bandwidth := s_bandwidth s'; s_timing := s_timing s';
      s_attribute := s_attribute s'; s_media := map section_media (s1 ++ (m, b1 ++ b2) :: s2); s_warnings := w1 ++ w2 |}.
    cbn [app] in *. split; [|split; [|split; [reflexivity|]]].
    + exists name, head, (s1 ++ (m, b1 ++ b2) :: s2). cbn [s_version s_origin s_session s_connection s_bandwidth s_timing s_attribute s_media]. split.
      { cbn [app]. do 3 f_equal. exact (mid_section head s1 m b1 [] b2 s2). }
      split; [exact A1|]. split; [exact A2|].
      split; [apply (Forall_mid _ _ (m, b1 ++ t :: b2)); [exact A3|]; intro O; apply ok_more in O; [tauto | exact H]|].
      split; [exact A4|]. split; [exact A5|]. split; [exact A6|]. split; [exact A7 | reflexivity].
    + unfold session_more. cbn. do 5 (split; [reflexivity|]). split; [exists w1, w2; auto|]. split; [reflexivity|]. split; [reflexivity|].
      exists (map section_media s1), (section_media (m, b1 ++ b2)), (section_media (m, b1 ++ t :: b2)), (map section_media s2).
      rewrite A8, !map_app. split; [reflexivity|]. split; [reflexivity|]. apply section_more, H.
    + split; [exact N|]. split.
      * apply Exists_exists. exists (TyMedia m). split; [|exists m; reflexivity].
        do 3 right. apply in_app_iff. right. apply in_app_iff. right. left. reflexivity.
      * apply Forall_app in A3. destruct A3 as [_ B]. inversion B as [|? ? O _]; subst. apply ok_more in O; [exact (proj2 O) | exact H].
Qed.

Section WithExt.
Context {E : Ext}.
Lemma line_at : forall t x n, line_is (eq t) x -> ~ blank x /\ exists l, parse_sdp_line x n = Ok l /\ l_type l = t.
Proof.
  intros t x n (B & l & K & ->). split; [exact B|]. exists (renumber n l). split; [|reflexivity].
  rewrite (line_renumber x 0 n), K. reflexivity.
Qed.
Lemma read_line : forall t x n r ts ws, line_is (eq t) x -> (Reads n (x :: r) ts ws <-> exists ts', ts = t :: ts' /\ Reads (S n) r ts' ws).
Proof.
  intros t x n r ts ws H. destruct (line_at t x n H) as (B & l & K & <-). split.
  - intro R. inversion R; subst; [contradiction| |]; match goal with Q : parse_sdp_line x n = _ |- _ => rewrite K in Q end; [|discriminate].
    match goal with Q : Ok _ = Ok _ |- _ => injection Q as -> end. eexists. split; [reflexivity | assumption].
  - intros (ts' & -> & R). apply Reads_line; assumption.
Qed.
Lemma unshift : forall ls n ts ws, Reads (S n) ls ts ws -> exists ws', Reads n ls ts ws' /\ ws = map bump ws'.
Proof.
  induction ls as [|x ls IH]; intros n ts ws R; inversion R; subst.
  - exists []. split; [constructor | reflexivity].
  - match goal with Q : Reads _ ls _ _ |- _ => destruct (IH _ _ _ Q) as (w & R' & ->) end. exists w. split; [apply Reads_blank; assumption | reflexivity].
  - match goal with Q : Reads _ ls _ _ |- _ => destruct (IH _ _ _ Q) as (w & R' & ->) end. exists w. split; [|reflexivity].
    match goal with Q : parse_sdp_line x _ = Ok ?y |- _ => change (l_type y) with (l_type (renumber n y)) end. apply Reads_line; [assumption| |exact R'].
    rewrite (line_renumber x (S n) n). match goal with Q : parse_sdp_line x _ = _ |- _ => rewrite Q end. reflexivity.
  - match goal with Q : Reads _ ls _ _ |- _ => destruct (IH _ _ _ Q) as (w & R' & ->) end. eexists (PUnsupported _ x n :: w). split; [|reflexivity].
    apply Reads_warning; [assumption| |exact R'].
    rewrite (line_renumber x (S n) n). match goal with Q : parse_sdp_line x _ = _ |- _ => rewrite Q end. reflexivity.
Qed.
Lemma media_read : forall n ls ts ws, Reads n ls ts ws -> (Exists line_is_media ls <-> Exists is_media ts).
Proof.
  intros n ls ts ws R. induction R as [n|n line rest ts ws B R IH|n line rest ts ws l B K R IH|n line rest ts ws e B K R IH].
  - split; intro H; inversion H.
  - rewrite <- IH. split; intro H; [inversion H as [? ? J|? ? J]; subst; [destruct J; contradiction | exact J] | right; exact H].
  - rewrite !Exists_cons, IH. assert (Q : line_is_media line <-> is_media (l_type l)); [|tauto].
    pose proof (line_renumber line n 0) as Z. rewrite K in Z. cbn in Z. split.
    + intros (_ & l' & K' & J). rewrite K' in Z. injection Z as ->. exact J.
    + intro J. split; [exact B|]. eexists. split; [exact Z | exact J].
  - rewrite <- IH. rewrite Exists_cons. assert (Q : ~ line_is_media line); [|tauto].
    intros (_ & l' & K' & J). pose proof (line_renumber line n 0) as Z. rewrite K, K' in Z. discriminate Z.
Qed.
Lemma name_said : forall n ls ts ws, Reads n ls ts ws -> Exists is_name ts -> Exists (line_is is_name) ls.
Proof.
  intros n ls ts ws R. induction R as [n|n line rest ts ws B R IH|n line rest ts ws l B K R IH|n line rest ts ws e B K R IH]; intro H.
  - inversion H.
  - right. apply IH, H.
  - inversion H as [? ? J|? ? J]; subst; [left; exact (one_type is_name line n l B K J) | right; apply IH, J].
  - right. apply IH, H.
Qed.
Lemma level_read : forall lv n ls ts ws, Reads n ls ts ws -> Exists is_name ts -> level_of lv ts -> level_at lv ls.
Proof.
  intros lv n ls ts ws R N L. pose proof (name_said _ _ _ _ R N) as M. destruct lv; cbn [level_of] in L.
  - apply (media_read _ _ _ _ R), L.
  - split; [exact M|]. apply Forall_Exists_neg. intro J. apply (media_read _ _ _ _ R) in J. revert J. apply Forall_Exists_neg. exact L.
Qed.
Lemma level_types : forall lv n ls ts ws, Reads n ls ts ws -> level_at lv ls -> Exists is_past ts /\ level_of lv ts.
Proof.
  intros lv n ls ts ws R L. destruct lv; cbn [level_of].
  - apply (media_read _ _ _ _ R) in L. split; [|exact L]. eapply Exists_impl; [|exact L]. intros t H. right. exact H.
  - destruct L as [N L]. split; [eapply Exists_impl; [|exact (name_read _ _ _ _ R N)]; intros t H; left; exact H|].
    apply Forall_Exists_neg. intro J. apply (media_read _ _ _ _ R) in J. revert J. apply Forall_Exists_neg. exact L.
Qed.
Lemma line_added : forall sdp sdp' A x B t lv b s,
  lines sdp = A ++ B -> lines sdp' = A ++ x :: B -> line_is (eq t) x -> outside break_added t ->
  level_at lv A -> item_at lv t -> 51 <= byte_len sdp' -> parse_sdp sdp b = Ok s ->
  exists s', parse_sdp sdp' b = Ok s' /\ session_more lv t s s'.
Proof.
  intros sdp sdp' A x B t lv b s L L' Hx O Lv It Sz H.
  apply document in H. destruct H as (_ & ts & ws & R & HW & Hb & L4 & As & St).
  rewrite L in R. apply Reads_app in R. destruct R as (ta & tb & wa & wb & Ra & Rb & -> & ->).
  destruct (level_types _ _ _ _ _ Ra Lv) as [N Lo].
  destruct (assembles_more lv ta t tb s wa wb (outside_plain _ _ O) It N Lo HW As) as (s' & As' & M & W').
  exists s'. split; [|exact M]. apply document. split; [exact Sz|]. exists (ta ++ t :: tb), (wa ++ map bump wb).
  split. { rewrite L'. apply Reads_app. exists ta, (t :: tb), wa, (map bump wb). split; [exact Ra|]. split; [|split; reflexivity].
    apply (read_line t x); [exact Hx|]. exists tb. split; [reflexivity|]. apply Reads_shift, Rb. }
  split; [exact W'|]. split.
  { intro Z. specialize (Hb Z). apply app_eq_nil in Hb. destruct Hb as [-> ->]. reflexivity. }
  split; [rewrite app_length in *; cbn [List.length]; lia|]. split; [exact As' | exact (structural_more lv t s s' M O St)].
Qed.
Lemma line_removed : forall sdp sdp' A x B t b s',
  lines sdp = A ++ B -> lines sdp' = A ++ x :: B -> line_is (eq t) x -> outside break_removed t ->
  51 <= byte_len sdp -> parse_sdp sdp' b = Ok s' ->
  exists lv s, parse_sdp sdp b = Ok s /\ session_more lv t s s' /\ level_at lv A /\ item_at lv t.
Proof.
  intros sdp sdp' A x B t b s' L L' Hx O Sz H.
  apply document in H. destruct H as (_ & ts & ws & R & HW & Hb & L4 & As & St).
  rewrite L' in R. apply Reads_app in R. destruct R as (ta & tb' & wa & wb' & Ra & Rb & -> & ->).
  apply (read_line t x) in Rb; [|exact Hx]. destruct Rb as (tb & -> & Rb). apply unshift in Rb. destruct Rb as (wb & Rb & ->).
  destruct (assembles_less ta t tb s' wa wb (outside_plain _ _ O) HW As) as (lv & s & As' & M & W' & N & Lo & It).
  pose proof (structural_less lv t s s' M O St) as St'.
  exists lv, s. split; [|split; [exact M|]; split; [exact (level_read _ _ _ _ _ Ra N Lo) | exact It]].
  apply document. split; [exact Sz|]. exists (ta ++ tb), (wa ++ wb).
  split; [rewrite L; apply Reads_app; exists ta, tb, wa, wb; auto|]. split; [exact W'|]. split.
  { intro Z. specialize (Hb Z). apply app_eq_nil in Hb. destruct Hb as [-> Z2]. apply map_eq_nil in Z2. exact Z2. }
  split; [|split; [exact As' | exact St']].
  destruct As' as (name & head & secs & K & _ & _ & _ & _ & _ & T & _). rewrite K. destruct (rule_timing _ St') as (tm & Q). rewrite T in Q.
  destruct head as [|h head]; [discriminate Q|]. cbn. lia.
Qed.
End WithExt.

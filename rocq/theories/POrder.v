(** * Lemmas for C54: the order of lines within a section *)
From Coq Require Import List NArith ZArith Bool Ascii String Lia Permutation.
From Verif Require Import Str Num Net Types Ext Show AttrParse Media Session StrLemmas SpecApi SpecDoc SpecOrder PDoc PDoc2 PDoc3.
Import ListNotations.
Open Scope N_scope.
Open Scope list_scope.

(** ** Lists *)
Lemma perm_flat : forall {A B} (f : A -> list B) l l', Permutation l l' -> Permutation (flat_map f l) (flat_map f l').
Proof. intros. apply Permutation_flat_map. assumption. Qed.
Lemma perm_filter : forall {A} (f : A -> bool) l l', Permutation l l' -> Permutation (filter f l) (filter f l').
Proof.
  intros A f l l' H. induction H as [|x l l' H IH|x y l|l l1 l2 H1 IH1 H2 IH2]; cbn [filter].
  - constructor.
  - destruct (f x); [constructor|]; exact IH.
  - destruct (f x), (f y); try apply Permutation_refl. constructor.
  - etransitivity; eassumption.
Qed.
Lemma perm_short : forall {A} (l l' : list A), Permutation l l' -> (List.length l <= 1)%nat -> l = l'.
Proof.
  intros A l l' H L. destruct l as [|x [|y l]]; [|destruct l' as [|x' [|y' l']]|cbn in L; lia].
  - apply Permutation_nil in H. symmetry. exact H.
  - apply Permutation_sym, Permutation_nil in H. discriminate.
  - apply Permutation_length_1 in H. congruence.
  - apply Permutation_length in H. discriminate.
Qed.
Lemma perm_forall : forall {A} (P : A -> Prop) l l', Permutation l l' -> Forall P l -> Forall P l'.
Proof. intros A P l l' H F. rewrite Forall_forall in *. intros x Hx. apply F. apply Permutation_in with l'; [apply Permutation_sym, H | exact Hx]. Qed.
Lemma perm_mid : forall {A} (p x x' q : list A), Permutation x x' -> Permutation (p ++ x ++ q) (p ++ x' ++ q).
Proof. intros. apply Permutation_app_head, Permutation_app_tail. assumption. Qed.

(** ** The session *)
Definition sims (l : list attr) : list simulcast := flat_map (fun a => match a with ASimulcast s => [s] | _ => [] end) l.
Lemma has_perm : forall n l l', Permutation l l' -> has n l -> has n l'.
Proof. intros n l l' H (a & I & N). exists a. split; [exact (Permutation_in _ H I) | exact N]. Qed.
Lemma name_simulcast : forall a, sdp_name a = "simulcast"%string -> exists s, a = ASimulcast s.
Proof. intros a H. destruct a; try discriminate H. eexists. reflexivity. Qed.
Lemma first_simulcast : forall l before sc after, l = before ++ ASimulcast sc :: after -> ~ has "simulcast" before ->
  hd_error (sims l) = Some sc.
Proof.
  intros l before sc after -> N. unfold sims. rewrite flat_map_app. cbn [flat_map app].
  assert (K : flat_map (fun a => match a with ASimulcast s => [s] | _ => [] end) before = []).
  { induction before as [|a before IH]; [reflexivity|]. cbn [flat_map]. rewrite IH.
    - destruct a; try reflexivity. destruct N. eexists. split; [left; reflexivity | reflexivity].
    - intros (x & I & H). apply N. exists x. split; [right; exact I | exact H]. }
  rewrite K. reflexivity.
Qed.
Lemma simulcast_first : forall l sc, hd_error (sims l) = Some sc ->
  exists before after, l = before ++ ASimulcast sc :: after /\ ~ has "simulcast" before.
Proof.
  induction l as [|a l IH]; intros sc H; [discriminate|].
  destruct (string_dec (sdp_name a) "simulcast") as [K|K].
  - apply name_simulcast in K. destruct K as (s & ->). cbn in H. injection H as ->. exists [], l.
    split; [reflexivity|]. intros (x & [] & _).
  - assert (Q : sims (a :: l) = sims l) by (destruct a; try reflexivity; destruct (K eq_refl)).
    rewrite Q in H. destruct (IH sc H) as (b & c & -> & N). exists (a :: b), c. split; [reflexivity|].
    intros (x & [<-|I] & Hx); [exact (K Hx)|]. apply N. exists x. split; assumption.
Qed.
Lemma rid_perm : forall l l' d i, Permutation l l' -> rid_defined l d i -> rid_defined l' d i.
Proof. intros l l' d i H (r & I & R). exists r. split; [exact (Permutation_in _ H I) | exact R]. Qed.
Lemma rules_alike : forall m m', media_alike m m' -> hd_error (sims (m_attribute m)) = hd_error (sims (m_attribute m')) ->
  media_rules m -> media_rules m'.
Proof.
  intros m m' (Q & _ & _ & P) S [R1 R2 R3]. pose proof (Permutation_sym P) as P'. split.
  - intro H. apply (has_perm _ _ _ P), R1, (has_perm _ _ _ P'), H.
  - intros r n I1 I2. rewrite <- Q. exact (R2 r n (Permutation_in _ P' I1) I2).
  - intros before sc after K N. pose proof (first_simulcast _ _ _ _ K N) as H. rewrite <- S in H.
    destruct (simulcast_first _ _ H) as (b & c & K' & N'). destruct (R3 b sc c K' N') as [A B].
    split; intros v i I1 I2; apply (rid_perm _ _ _ _ P); [exact (A v i I1 I2) | exact (B v i I1 I2)].
Qed.
(** Where the lines are. *)
Definition media_free (l : list sdp_type) : Prop := Forall (fun t => ~ is_media t) l.
Lemma locate : forall secs P x X Q head, P ++ (x :: X) ++ Q = head ++ flat_map section_lines secs -> media_free (x :: X) ->
  (exists h2, head = P ++ (x :: X) ++ h2 /\ Q = h2 ++ flat_map section_lines secs) \/
  (exists s1 m b1 b2 s2, secs = s1 ++ (m, b1 ++ (x :: X) ++ b2) :: s2 /\
     P = head ++ flat_map section_lines s1 ++ TyMedia m :: b1 /\ Q = b2 ++ flat_map section_lines s2).
Proof.
  induction secs as [|[m b] secs IH]; intros P x X Q head K F.
  - cbn [flat_map] in *. rewrite app_nil_r in K. left. exists Q. split; [symmetry; exact K | rewrite app_nil_r; reflexivity].
  - apply app_eq_app in K. destruct K as (l & [[K1 K2]|[K1 K2]]).
    + cbn [flat_map section_lines fst snd app] in K2. destruct l as [|y l].
      * cbn [app] in K2. injection K2 as K2 _. destruct (Forall_inv F). exists m. symmetry. exact K2.
      * injection K2 as <- K2. symmetry in K2. destruct (IH l x X Q b K2 F) as [(h2 & -> & ->)|(s1 & m' & b1 & b2 & s2 & -> & -> & ->)].
        -- right. exists [], m, l, h2, secs. split; [reflexivity|]. split; [exact K1 | reflexivity].
        -- right. exists ((m, b) :: s1), m', b1, b2, s2. split; [reflexivity|]. split; [|reflexivity].
           rewrite K1. cbn [flat_map section_lines fst snd app]. rewrite <- app_assoc. reflexivity.
    + change ((x :: X) ++ Q = l ++ flat_map section_lines ((m, b) :: secs)) in K2.
      apply app_eq_app in K2. destruct K2 as (l' & [[K2 K3]|[K2 K3]]).
      * destruct l' as [|y l'].
        -- rewrite app_nil_r in K2. subst l. left. exists []. split; [rewrite app_nil_r; exact K1 | symmetry; exact K3].
        -- exfalso. cbn [flat_map section_lines fst snd app] in K3. injection K3 as <- _. rewrite K2 in F.
           unfold media_free in F. rewrite Forall_forall in F. apply (F (TyMedia m)); [apply in_or_app; right; left; reflexivity|].
           exists m. reflexivity.
      * left. exists l'. rewrite <- K2. split; [exact K1 | exact K3].
Qed.
Definition simulcasts_of (l : list sdp_type) : list simulcast := sims (attributes l).
Definition few (l : list sdp_type) : Prop :=
  (List.length (timings l) <= 1)%nat /\ (List.length (connections l) <= 1)%nat /\ (List.length (simulcasts_of l) <= 1)%nat.
Lemma mid_flat : forall {A B} (f : A -> list B) p x x' q, flat_map f x = flat_map f x' ->
  flat_map f (p ++ x ++ q) = flat_map f (p ++ x' ++ q).
Proof. intros. rewrite !flat_map_app. congruence. Qed.
Lemma sims_not_dtls : forall l, sims (filter (not_named "dtls-message") l) = sims l.
Proof.
  induction l as [|a l IH]; [reflexivity|]. unfold sims in *. cbn [filter]. destruct (not_named "dtls-message" a) eqn:K; cbn [flat_map]; [congruence|].
  rewrite IH. destruct a; try reflexivity. discriminate K.
Qed.
Lemma section_alike : forall m b1 X X' b2, Permutation X X' -> few X ->
  media_alike (section_media (m, b1 ++ X ++ b2)) (section_media (m, b1 ++ X' ++ b2)) /\
  (section_ok (m, b1 ++ X ++ b2) -> section_ok (m, b1 ++ X' ++ b2)) /\
  (media_rules (section_media (m, b1 ++ X ++ b2)) -> media_rules (section_media (m, b1 ++ X' ++ b2))).
Proof.
  intros m b1 X X' b2 P (_ & F2 & F3).
  assert (C : connections (b1 ++ X ++ b2) = connections (b1 ++ X' ++ b2)) by (apply mid_flat, perm_short; [apply perm_flat, P | exact F2]).
  assert (S : simulcasts_of (b1 ++ X ++ b2) = simulcasts_of (b1 ++ X' ++ b2)).
  { unfold simulcasts_of, sims, attributes. rewrite !flat_map_app. do 2 f_equal. apply perm_short; [apply perm_flat, perm_flat, P | exact F3]. }
  assert (Al : media_alike (section_media (m, b1 ++ X ++ b2)) (section_media (m, b1 ++ X' ++ b2))).
  { unfold section_media, media_alike. cbn [m_media m_connection m_bandwidth m_attribute fst snd]. rewrite C. split; [reflexivity|]. split; [reflexivity|].
    split; [apply perm_flat, perm_mid, P | apply perm_filter, perm_flat, perm_mid, P]. }
  split; [exact Al|]. split.
  - intros [O1 O2]. cbn [snd] in *. split; cbn [snd]; [exact (perm_forall _ _ _ (perm_mid b1 _ _ b2 P) O1) | rewrite <- C; exact O2].
  - apply rules_alike; [exact Al|]. unfold section_media. cbn [m_attribute snd]. rewrite !sims_not_dtls. f_equal. exact S.
Qed.
Lemma alike_refl : forall l, Forall2 media_alike l l.
Proof. induction l as [|m l IH]; constructor; [|exact IH]. split; [reflexivity|]. split; [reflexivity|]. split; apply Permutation_refl. Qed.
Lemma session_alike_refl : forall s, session_alike s s.
Proof. intro s. do 5 (split; [reflexivity|]). split; [apply Permutation_refl|]. split; [apply Permutation_refl | apply alike_refl]. Qed.
Lemma alike_connections : forall l l', Forall2 media_alike l l' ->
  Forall (fun m => present (m_connection m)) l -> Forall (fun m => present (m_connection m)) l'.
Proof.
  intros l l' H. induction H as [|m m' l l' (_ & C & _) H IH]; intro F; [constructor|]. inversion F; subst. constructor; [congruence | apply IH; assumption].
Qed.
Lemma alike_extmap : forall l l', Forall2 media_alike l l' ->
  Exists (fun m => has "extmap" (m_attribute m)) l' -> Exists (fun m => has "extmap" (m_attribute m)) l.
Proof.
  intros l l' H. induction H as [|m m' l l' (_ & _ & _ & P) H IH]; intro F; inversion F; subst.
  - left. apply (has_perm _ _ _ (Permutation_sym P)). assumption.
  - right. apply IH. assumption.
Qed.
Lemma structural_alike : forall s s', session_alike s s' -> Forall media_rules (s_media s') -> structural s -> structural s'.
Proof.
  intros s s' (_ & _ & _ & T & C & _ & P & M) R [R1 R2 R3 _]. split.
  - congruence.
  - destruct R2 as [R2|R2]; [left; congruence | right; exact (alike_connections _ _ M R2)].
  - intros [H1 H2]. apply R3. split; [exact (has_perm _ _ _ (Permutation_sym P) H1) | exact (alike_extmap _ _ M H2)].
  - exact R.
Qed.
Lemma mid_section : forall head s1 m b1 X b2 s2,
  (head ++ flat_map section_lines s1 ++ TyMedia m :: b1) ++ X ++ b2 ++ flat_map section_lines s2 =
  head ++ flat_map section_lines (s1 ++ (m, b1 ++ X ++ b2) :: s2).
Proof.
  intros. rewrite flat_map_app, <- !app_assoc. do 2 f_equal.
  change (flat_map section_lines ((m, b1 ++ X ++ b2) :: s2)) with (TyMedia m :: (b1 ++ X ++ b2) ++ flat_map section_lines s2).
  cbn [app]. rewrite <- !app_assoc. reflexivity.
Qed.
Lemma assembles_alike : forall P X X' Q s, Permutation X X' -> media_free X -> few X -> Exists is_name P ->
  Assembles (P ++ X ++ Q) s -> structural s ->
  exists s', Assembles (P ++ X' ++ Q) s' /\ structural s' /\ session_alike s s' /\ s_warnings s' = s_warnings s.
Proof.
  intros P X X' Q s Pe F W N (name & head & secs & L & A1 & A2 & A3 & A4 & A5 & A6 & A7 & A8) St.
  destruct X as [|x X].
  { apply Permutation_nil in Pe. subst X'. exists s. split; [exists name, head, secs; tauto|].
    split; [exact St|]. split; [apply session_alike_refl | reflexivity]. }
  assert (NP : exists P3, P = TyVersion (s_version s) :: TyOrigin (s_origin s) :: TySession name :: P3).
  { apply Exists_exists in N. destruct N as (y & I & n & ->).
    destruct P as [|p0 [|p1 [|p2 P]]].
    - destruct I.
    - destruct I as [->|[]]. injection L as L. discriminate L.
    - destruct I as [->|[->|[]]]; [injection L as L; discriminate L | injection L as _ L; discriminate L].
    - injection L as -> -> -> L. exists P. reflexivity. }
  destruct NP as (P3 & ->). cbn [app] in L. injection L as L.
  destruct (locate secs P3 x X Q head L F) as [(h2 & -> & ->)|(s1 & m & b1 & b2 & s2 & -> & -> & ->)].
  - destruct W as (W1 & W2 & _).
    set (s' := {| s_version := s_version s; s_origin := s_origin s; s_session := s_session s;
      s_connection := s_connection s; s_bandwidth := bandwidths (P3 ++ X' ++ h2); s_timing := s_timing s;
      s_attribute := attributes (P3 ++ X' ++ h2); s_media := s_media s; s_warnings := s_warnings s |}).
    assert (Al : session_alike s s').
    { unfold session_alike. subst s'. cbn. do 5 (split; [reflexivity|]). rewrite A4, A5.
      split; [apply perm_flat, perm_mid, Pe|]. split; [apply perm_flat, perm_mid, Pe | apply alike_refl]. }
    exists s'. split; [|split; [|split; [exact Al | reflexivity]]].
    + exists name, (P3 ++ X' ++ h2), secs. cbn. split; [rewrite <- !app_assoc; reflexivity|]. split; [exact A1|].
      split; [exact (perm_forall _ _ _ (perm_mid P3 _ _ h2 Pe) A2)|]. split; [exact A3|]. split; [reflexivity|]. split; [reflexivity|].
      split; [rewrite A6; f_equal; apply mid_flat, perm_short; [apply perm_flat, Pe | exact W1]|].
      split; [rewrite A7; f_equal; apply mid_flat, perm_short; [apply perm_flat, Pe | exact W2] | exact A8].
    + apply (structural_alike s); [exact Al | exact (rule_media _ St) | exact St].
  - destruct (section_alike m b1 (x :: X) X' b2 Pe W) as (S1 & S2 & S3).
    set (s' := {| s_version := s_version s; s_origin := s_origin s; s_session := s_session s;
      s_connection := s_connection s; s_bandwidth := s_bandwidth s; s_timing := s_timing s;
      s_attribute := s_attribute s; s_media := map section_media (s1 ++ (m, b1 ++ X' ++ b2) :: s2); s_warnings := s_warnings s |}).
    assert (Al : session_alike s s').
    { unfold session_alike. subst s'. cbn. do 5 (split; [reflexivity|]). split; [apply Permutation_refl|]. split; [apply Permutation_refl|].
      rewrite A8, !map_app. apply Forall2_app; [apply alike_refl|]. cbn [map]. constructor; [exact S1 | apply alike_refl]. }
    exists s'. split; [|split; [|split; [exact Al | reflexivity]]].
    + exists name, head, (s1 ++ (m, b1 ++ X' ++ b2) :: s2). subst s'. cbn [s_version s_origin s_session s_connection s_bandwidth s_timing s_attribute s_media]. split.
      { cbn [app]. do 3 f_equal. apply mid_section. }
      split; [exact A1|]. split; [exact A2|].
      split; [apply Forall_app in A3; destruct A3 as [B1 B2]; inversion B2; subst; apply Forall_app; split; [exact B1 | constructor; [apply S2; assumption | assumption]]|].
      split; [exact A4|]. split; [exact A5|]. split; [exact A6|]. split; [exact A7 | reflexivity].
    + apply (structural_alike s); [exact Al | | exact St]. pose proof (rule_media _ St) as R. rewrite A8, map_app in R.
      subst s'. cbn [s_media]. rewrite map_app. apply Forall_app in R. destruct R as [R1 R2]. apply Forall_app. split; [exact R1|].
      cbn [map] in *. inversion R2; subst. constructor; [apply S3; assumption | assumption].
Qed.

Section WithExt.
Context {E : Ext}.

(** ** The lines *)
Lemma Reads_renumber : forall n ls ts ws, Reads n ls ts ws -> forall m, exists ws', Reads m ls ts ws' /\ map said ws = map said ws'.
Proof.
  intros n ls ts ws R. induction R as [n|n line rest ts ws B R IH|n line rest ts ws l B P R IH|n line rest ts ws e B P R IH]; intro m.
  - exists []. split; [constructor | reflexivity].
  - destruct (IH (S m)) as (ws' & R' & Q). exists ws'. split; [apply Reads_blank; assumption | exact Q].
  - destruct (IH (S m)) as (ws' & R' & Q). exists ws'. split; [|exact Q].
    pose proof (line_renumber line n m) as K. rewrite P in K.
    change (l_type l) with (l_type (renumber m l)). apply Reads_line; assumption.
  - destruct (IH (S m)) as (ws' & R' & Q). exists (PUnsupported e line m :: ws'). split; [|cbn; f_equal; exact Q].
    apply Reads_warning; try assumption. pose proof (line_renumber line n m) as K. rewrite P in K. exact K.
Qed.
Lemma Reads_perm : forall X X', Permutation X X' -> forall n ts ws, Reads n X ts ws -> forall m,
  exists ts' ws', Reads m X' ts' ws' /\ Permutation ts ts' /\ Permutation (map said ws) (map said ws').
Proof.
  intros X X' H. induction H as [|x X X' H IH|x y X|X X1 X2 H1 IH1 H2 IH2]; intros n ts ws R m.
  - inversion R; subst. exists [], []. split; [constructor | split; constructor].
  - change (x :: X) with ([x] ++ X) in R. apply Reads_app in R. destruct R as (t1 & t2 & w1 & w2 & R1 & R2 & -> & ->).
    destruct (Reads_renumber _ _ _ _ R1 m) as (w1' & R1' & Q1). destruct (IH _ _ _ R2 (m + List.length [x])%nat) as (t2' & w2' & R2' & P1 & P2).
    exists (t1 ++ t2'), (w1' ++ w2'). split; [|split].
    + change (x :: X') with ([x] ++ X'). apply Reads_app. exists t1, t2', w1', w2'. auto.
    + apply Permutation_app_head, P1.
    + rewrite !map_app, Q1. apply Permutation_app_head, P2.
  - change (y :: x :: X) with ([y] ++ [x] ++ X) in R. apply Reads_app in R. destruct R as (t1 & t2 & w1 & w2 & R1 & R2 & -> & ->).
    apply Reads_app in R2. destruct R2 as (t3 & t4 & w3 & w4 & R3 & R4 & -> & ->).
    destruct (Reads_renumber _ _ _ _ R3 m) as (w3' & R3' & Q3). destruct (Reads_renumber _ _ _ _ R1 (m + List.length [x])%nat) as (w1' & R1' & Q1).
    destruct (Reads_renumber _ _ _ _ R4 (m + List.length [x] + List.length [y])%nat) as (w4' & R4' & Q4).
    exists (t3 ++ t1 ++ t4), (w3' ++ w1' ++ w4'). split; [|split].
    + change (x :: y :: X) with ([x] ++ [y] ++ X). apply Reads_app. exists t3, (t1 ++ t4), w3', (w1' ++ w4').
      split; [exact R3'|]. split; [|split; reflexivity]. apply Reads_app. exists t1, t4, w1', w4'. auto.
    + rewrite !app_assoc. apply Permutation_app_tail, Permutation_app_comm.
    + rewrite !map_app, Q1, Q3, Q4, !app_assoc. apply Permutation_app_tail, Permutation_app_comm.
  - destruct (IH1 _ _ _ R n) as (t1 & w1 & R1 & P1 & P2). destruct (IH2 _ _ _ R1 m) as (t2 & w2 & R2 & P3 & P4).
    exists t2, w2. split; [exact R2|]. split; etransitivity; eassumption.
Qed.
Lemma one_type : forall (P : sdp_type -> Prop) (line : str) n l, ~ blank line -> parse_sdp_line line n = Ok l -> P (l_type l) -> line_is P line.
Proof.
  intros P line n l B K H. split; [exact B|]. exists (renumber 0 l). split; [|exact H].
  pose proof (line_renumber line n 0) as Q. rewrite K in Q. exact Q.
Qed.
(** At most one line of a kind, at most one thing of that kind. *)
Lemma none_of_kind : forall (P : sdp_type -> Prop) A (f : sdp_type -> list A),
  (forall t, f t = [] \/ P t) -> forall n ls ts ws, Reads n ls ts ws -> Forall (fun x => ~ line_is P x) ls -> flat_map f ts = [].
Proof.
  intros P A f Hf n ls ts ws R. induction R as [n|n line rest ts ws B R IH|n line rest ts ws l B K R IH|n line rest ts ws e B K R IH]; intro F;
    try (inversion F; subst); try reflexivity; try (apply IH; assumption).
  cbn [flat_map]. rewrite IH by assumption. destruct (Hf (l_type l)) as [H|H]; [rewrite H; reflexivity|].
  match goal with Q : ~ line_is P line |- _ => destruct Q end. exact (one_type P line n l B K H).
Qed.
Lemma one_of_kind : forall (P : sdp_type -> Prop) A (f : sdp_type -> list A),
  (forall t, f t = [] \/ P t) -> (forall t, (List.length (f t) <= 1)%nat) -> forall n ls ts ws, Reads n ls ts ws ->
  at_most_one (line_is P) ls -> (List.length (flat_map f ts) <= 1)%nat.
Proof.
  intros P A f Hf H1 n ls ts ws R. induction R as [n|n line rest ts ws B R IH|n line rest ts ws l B K R IH|n line rest ts ws e B K R IH]; intro F.
  - cbn. lia.
  - apply IH. intros a x b y c Q. apply (F (line :: a) x b y c). rewrite Q. reflexivity.
  - cbn [flat_map]. rewrite app_length.
    destruct (Hf (l_type l)) as [H|H].
    + rewrite H. cbn [List.length]. apply IH. intros a x b y c Q. apply (F (line :: a) x b y c). rewrite Q. reflexivity.
    + rewrite (none_of_kind P A f Hf _ _ _ _ R); [cbn [List.length]; pose proof (H1 (l_type l)); lia|].
      apply Forall_forall. intros y Hy. apply in_split in Hy. destruct Hy as (b & c & ->).
      apply (F [] line b y c eq_refl). exact (one_type P line n l B K H).
  - apply IH. intros a x b y c Q. apply (F (line :: a) x b y c). rewrite Q. reflexivity.
Qed.
Lemma name_read : forall n ls ts ws, Reads n ls ts ws -> Exists (line_is is_name) ls -> Exists is_name ts.
Proof.
  intros n ls ts ws R. induction R as [n|n line rest ts ws B R IH|n line rest ts ws l B K R IH|n line rest ts ws e B K R IH]; intro Ex;
    inversion Ex as [? ? H|? ? H]; subst; try (apply IH; exact H).
  - destruct H as [H _]. contradiction.
  - left. destruct H as (_ & l' & K' & H). pose proof (line_renumber line n 0) as Q. rewrite K, K' in Q. injection Q as ->. exact H.
  - right. apply IH, H.
  - destruct H as (_ & l' & K' & H). pose proof (line_renumber line n 0) as Q. rewrite K, K' in Q. discriminate Q.
Qed.
Lemma order_irrelevant : forall sdp sdp' A X X' B b s,
  lines sdp = A ++ X ++ B -> lines sdp' = A ++ X' ++ B -> Permutation X X' -> movable A X ->
  51 <= byte_len sdp' -> parse_sdp sdp b = Ok s ->
  exists s', parse_sdp sdp' b = Ok s' /\ session_alike s s' /\ Permutation (map said (s_warnings s)) (map said (s_warnings s')).
Proof.
  intros sdp sdp' A X X' B b s L L' Pe (N & M & T1 & T2 & T3) Sz H.
  apply document in H. destruct H as (_ & ts & ws & R & HW & Hb & L4 & As & St).
  rewrite L in R. apply Reads_app in R. destruct R as (ta & tr & wa & wr & Ra & R & -> & ->).
  apply Reads_app in R. destruct R as (tx & tb & wx & wb & Rx & Rb & -> & ->).
  destruct (Reads_perm _ _ Pe _ _ _ Rx (0 + List.length A)%nat) as (tx' & wx' & Rx' & P1 & P2).
  destruct (Reads_renumber _ _ _ _ Rb (0 + List.length A + List.length X')%nat) as (wb' & Rb' & Qb).
  assert (F : few tx).
  { split; [|split].
    - refine (one_of_kind is_timing _ _ _ _ _ _ _ _ Rx T1); intros []; cbn; try (left; reflexivity); try lia. right. eexists. reflexivity.
    - refine (one_of_kind is_connection _ _ _ _ _ _ _ _ Rx T2); intros []; cbn; try (left; reflexivity); try lia. right. eexists. reflexivity.
    - unfold simulcasts_of, sims, attributes.
      replace (flat_map _ (flat_map _ tx)) with (flat_map (fun t => match t with TyAttribute (ASimulcast y) => [y] | _ => [] end) tx).
      + refine (one_of_kind is_simulcast _ _ _ _ _ _ _ _ Rx T3); intros [[]| | | | | | |]; cbn; try (left; reflexivity); try lia. right. eexists. reflexivity.
      + clear. induction tx as [|t tx IH]; [reflexivity|]. cbn [flat_map]. rewrite flat_map_app, IH. f_equal. destruct t as [[]| | | | | | |]; reflexivity. }
  destruct (assembles_alike ta tx tx' tb s P1) as (s' & As' & St' & Al & _); try assumption.
  { exact (Reads_not_media _ _ _ _ M Rx). }
  { exact (name_read _ _ _ _ Ra N). }
  assert (PW : Permutation (map said (wa ++ wx ++ wb)) (map said (wa ++ wx' ++ wb'))).
  { rewrite !map_app, Qb. apply perm_mid, P2. }
  exists (with_warnings s' (wa ++ wx' ++ wb')). split; [|split].
  - apply document. split; [exact Sz|]. exists (ta ++ tx' ++ tb), (wa ++ wx' ++ wb').
    split; [rewrite L'; apply Reads_app; exists ta, (tx' ++ tb), wa, (wx' ++ wb'); split; [exact Ra|]; split; [|split; reflexivity];
            apply Reads_app; exists tx', tb, wx', wb'; auto|].
    split; [reflexivity|]. split.
    { intro Z. rewrite (Hb Z) in PW. apply Permutation_nil in PW. apply map_eq_nil in PW. exact PW. }
    split; [rewrite !app_length in *; rewrite <- (Permutation_length P1); exact L4|].
    split; [apply Assembles_warnings; exact As'|]. apply structural_warnings. exact St'.
  - exact Al.
  - rewrite HW. exact PW.
Qed.
(** The conditions do not depend on the order. *)
Lemma one_cons : forall (P : str -> Prop) x l, at_most_one P (x :: l) <-> at_most_one P l /\ (P x -> Forall (fun y => ~ P y) l).
Proof.
  intros P x l. split.
  - intro H. split.
    + intros a y b z c Q. apply (H (x :: a) y b z c). rewrite Q. reflexivity.
    + intro Hx. apply Forall_forall. intros y Hy. apply in_split in Hy. destruct Hy as (b & c & ->). exact (H [] x b y c eq_refl Hx).
  - intros [H1 H2] a y b z c Q Hy Hz. destruct a as [|w a].
    + injection Q as -> ->. specialize (H2 Hy). rewrite Forall_forall in H2. apply (H2 z); [apply in_elt | exact Hz].
    + injection Q as -> ->. exact (H1 a y b z c eq_refl Hy Hz).
Qed.
Lemma one_perm : forall (P : str -> Prop) l l', Permutation l l' -> at_most_one P l -> at_most_one P l'.
Proof.
  intros P l l' H. induction H as [|x l l' H IH|x y l|l l1 l2 H1 IH1 H2 IH2]; intro O.
  - exact O.
  - apply one_cons in O. destruct O as [O1 O2]. apply one_cons. split; [exact (IH O1)|]. intro K. exact (perm_forall _ _ _ H (O2 K)).
  - apply one_cons in O. destruct O as [O1 O2]. apply one_cons in O1. destruct O1 as [O1 O3]. apply one_cons. split.
    + apply one_cons. split; [exact O1|]. intro K. exact (Forall_inv_tail (O2 K)).
    + intro K. constructor; [|exact (O3 K)]. intro K'. exact (Forall_inv (O2 K') K).
  - exact (IH2 (IH1 O)).
Qed.
Lemma movable_perm : forall A X X', Permutation X X' -> movable A X -> movable A X'.
Proof.
  intros A X X' H (N & M & T1 & T2 & T3). split; [exact N|]. split; [exact (perm_forall _ _ _ H M)|].
  split; [exact (one_perm _ _ _ H T1)|]. split; [exact (one_perm _ _ _ H T2) | exact (one_perm _ _ _ H T3)].
Qed.
Lemma order_accepted : forall sdp sdp' A X X' B b,
  lines sdp = A ++ X ++ B -> lines sdp' = A ++ X' ++ B -> Permutation X X' -> movable A X ->
  51 <= byte_len sdp -> 51 <= byte_len sdp' ->
  ((exists s, parse_sdp sdp b = Ok s) <-> (exists s, parse_sdp sdp' b = Ok s)).
Proof.
  intros sdp sdp' A X X' B b L L' P M S1 S2. split; intros (s & H).
  - destruct (order_irrelevant sdp sdp' A X X' B b s L L' P M S2 H) as (s' & H' & _). exists s'. exact H'.
  - destruct (order_irrelevant sdp' sdp A X' X B b s L' L (Permutation_sym P) (movable_perm _ _ _ P M) S1 H) as (s' & H' & _). exists s'. exact H'.
Qed.
End WithExt.

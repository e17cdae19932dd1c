(** * Lemmas for C55: texts, simulcast, msid-semantic and fmtp *)
From Coq Require Import List NArith ZArith Lia Bool Ascii String.
From Coq Require Import ZifyBool ZifyNat ZifyN.
From Verif Require Import Str Num Net Types Ext Show Address AttrParse Media Session SpecApi SpecDoc SpecVal SpecItems SpecPrint SpecSettle.
From Verif Require Import StrLemmas NumLemmas NetLemmas PPanic PDoc PDoc2 PDoc3 PDoc4 PVal PVal2 PVal8 PVal9 PVal10 PVal11.
From Verif Require Import PPrint PPrint2 PPrint3 PPrint4 PPrint5 PPrint6 PPrint7 PPrint8 PPrint9 PPrint10 PPrint11.
Import ListNotations.
Open Scope N_scope.
Open Scope list_scope.

(** ** Texts *)
Lemma shr_refl : forall t, shrinks t t.
Proof. intro t. left. reflexivity. Qed.
Lemma shr_le : forall t t', shrinks t t' -> (List.length t' <= List.length t)%nat.
Proof. intros t t' [->|H]; lia. Qed.
Lemma shr_trans : forall a b c, shrinks a b -> shrinks b c -> shrinks a c.
Proof. intros a b c [->|H] K; [exact K|]. apply shr_le in K. right. lia. Qed.
Lemma shr_app : forall a a' b b', shrinks a a' -> shrinks b b' -> shrinks (a ++ b) (a' ++ b').
Proof.
  intros a a' b b' H K. pose proof (shr_le _ _ H). pose proof (shr_le _ _ K).
  destruct H as [->|H]; [destruct K as [->|K]; [left; reflexivity|]|]; right; rewrite !app_length; lia.
Qed.
Lemma shr_cons : forall c t t', shrinks t t' -> shrinks (c :: t) (c :: t').
Proof. intros c t t' H. exact (shr_app [c] [c] t t' (shr_refl _) H). Qed.
Lemma shr_join : forall sep l l', Forall2 shrinks l l' -> shrinks (join sep l) (join sep l').
Proof.
  intros sep l l' F. induction F as [|x y l l' H F IH]; [apply shr_refl|].
  destruct F as [|x2 y2 l l' H2 F]; [exact H|].
  rewrite !join_cons by discriminate. apply shr_app; [exact H|]. apply shr_app; [apply shr_refl | exact IH].
Qed.
Lemma shr_trim : forall t, shrinks t (trim_end t).
Proof.
  intro t. destruct (trim_end_suffix t) as (w & K & _). pose proof (f_equal (@List.length _) K) as L. rewrite app_length in L.
  destruct w; [left; rewrite app_nil_r in K; congruence | right; cbn in L; lia].
Qed.
Lemma filter_not_in : forall l, ~ In [] l -> filter non_empty l = l.
Proof. intros l H. apply filter_nonempty_id, Forall_forall. intros t I ->. exact (H I). Qed.
Lemma shr_filter : forall c l, shrinks (join [c] l) (join [c] (filter non_empty l)).
Proof.
  intros c l. destruct (in_dec (list_eq_dec N.eq_dec) [] l) as [I|I].
  - destruct (list_eq_dec N.eq_dec (join [c] (filter non_empty l)) []) as [K|K].
    + rewrite K. destruct (join [c] l); [left; reflexivity | right; cbn; lia].
    + right. exact (proj2 (join_filter c l K) I).
  - rewrite filter_not_in by exact I. apply shr_refl.
Qed.

(** ** Numbers *)
Lemma dec_value_snoc : forall ds c, dec_value (ds ++ [c]) = 10 * dec_value ds + (c - 48).
Proof. intros ds c. unfold dec_value. rewrite fold_left_app. reflexivity. Qed.
Lemma dec_bound : forall ds, Forall is_digit ds -> dec_value ds < 10 ^ N.of_nat (List.length ds).
Proof.
  intro ds. induction ds as [|c ds IH] using rev_ind; intro F; [reflexivity|].
  apply Forall_app in F. destruct F as [F Fc]. apply Forall_inv in Fc. unfold is_digit in Fc. specialize (IH F).
  rewrite dec_value_snoc, app_length. cbn [List.length]. replace (List.length ds + 1)%nat with (S (List.length ds)) by lia.
  rewrite Nat2N.inj_succ, N.pow_succ_r'. lia.
Qed.
Lemma dec_at_least : forall c ds, 49 <= c -> 10 ^ N.of_nat (List.length ds) <= dec_value (c :: ds).
Proof.
  intros c ds H. induction ds as [|d ds IH] using rev_ind.
  - unfold dec_value. cbn [fold_left List.length]. change (N.of_nat 0) with 0. rewrite N.pow_0_r. lia.
  - change (c :: ds ++ [d]) with ((c :: ds) ++ [d]). rewrite dec_value_snoc, app_length. cbn [List.length].
    replace (List.length ds + 1)%nat with (S (List.length ds)) by lia. rewrite Nat2N.inj_succ, N.pow_succ_r'. lia.
Qed.
Lemma dec_inj : forall a b, Forall is_digit a -> Forall is_digit b -> List.length a = List.length b -> dec_value a = dec_value b -> a = b.
Proof.
  intro a. induction a as [|c a IH] using rev_ind; intros b Fa Fb L Q.
  - destruct b; [reflexivity | discriminate L].
  - destruct b as [|y b0]; [rewrite app_length in L; cbn in L; lia|].
    destruct (@exists_last _ (y :: b0)) as (b & d & K); [discriminate|]. rewrite K in *.
    apply Forall_app in Fa, Fb. destruct Fa as [Fa Fc], Fb as [Fb Fd]. apply Forall_inv in Fc, Fd. unfold is_digit in Fc, Fd.
    rewrite !app_length in L. cbn [List.length] in L. rewrite !dec_value_snoc in Q.
    assert (c = d) as -> by lia. f_equal. apply IH; [exact Fa | exact Fb | lia | lia].
Qed.
Lemma show_N_first : forall n, Forall is_digit (show_N n) /\ (List.length (show_N n) = 1%nat \/ exists c ds, show_N n = c :: ds /\ 49 <= c).
Proof.
  intro n. destruct (numeral_printed n n (N.le_refl n)) as (ds0 & H & _ & D & V & _).
  assert (Fd : Forall is_digit (show_N n)).
  { destruct H as [H|H]; [rewrite H; exact D|]. pose proof (show_N_chars n) as C. rewrite H in C. cbn in C. discriminate C. }
  split; [exact Fd|]. clear - n. unfold show_N.
  destruct (show_radix_spec digit_lower 10 n ltac:(lia)) as (ds & E & F & V & NE & [L|(d & ds' & -> & P)]); rewrite E.
  - left. rewrite map_length. exact L.
  - right. exists (digit_lower d), (map digit_lower ds'). split; [reflexivity|]. apply Forall_inv in F. unfold digit_lower.
    destruct (d <? 10) eqn:K; lia.
Qed.
Lemma dec_value_shown : forall n, dec_value (show_N n) = n.
Proof.
  intro n. destruct (numeral_printed n n (N.le_refl n)) as (ds & H & _ & D & V & _).
  destruct H as [H|H]; [rewrite H; symmetry; exact V|].
  pose proof (show_N_chars n) as C. rewrite H in C. cbn in C. discriminate C.
Qed.
Lemma shr_digits : forall ds, ds <> [] -> Forall is_digit ds -> shrinks ds (show_N (dec_value ds)).
Proof.
  intros ds N F. destruct (show_N_first (dec_value ds)) as [Fs Sh]. pose proof (dec_value_shown (dec_value ds)) as V.
  set (t := show_N (dec_value ds)) in *.
  assert (L : (List.length t <= List.length ds)%nat).
  { destruct Sh as [Sh|(c & x & Sh & C)].
    - rewrite Sh. destruct ds; [congruence | cbn; lia].
    - rewrite Sh in V |- *. pose proof (dec_at_least c x C) as A. pose proof (dec_bound ds F) as B. rewrite V in A.
      cbn [List.length]. destruct (Nat.le_gt_cases (S (List.length x)) (List.length ds)) as [K|K]; [exact K|].
      assert (P : 10 ^ N.of_nat (List.length ds) <= 10 ^ N.of_nat (List.length x)) by (apply N.pow_le_mono_r; lia). lia. }
  destruct (Nat.eq_dec (List.length t) (List.length ds)) as [K|K]; [|right; lia].
  left. apply dec_inj; assumption.
Qed.
Lemma shr_numeral : forall max s n, numeral max s n -> shrinks s (show_N n).
Proof.
  intros max s n (ds & S & N & F & -> & _). pose proof (shr_digits ds N F) as K. destruct S as [->| ->]; [exact K|].
  right. apply shr_le in K. cbn [List.length]. lia.
Qed.
Lemma shr_core : forall s t, core s t -> shrinks s t.
Proof.
  intros s t (w1 & w2 & -> & _). destruct w1 as [|c w1]; [destruct w2 as [|c w2]|].
  - left. rewrite app_nil_r. reflexivity.
  - right. rewrite !app_length. cbn. lia.
  - right. rewrite !app_length. cbn. lia.
Qed.

Section WithExt.
Context {E : Ext}.
Context (X : ext_ok E).

(** ** What a printed attribute is read as *)
Lemma value_of_other : forall a a' t s, ~ flag_attribute a -> show_attr a = attr_to_string t s ->
  show_attr_type t = of_string (sdp_name a) ->
  line_means (printed_line (TyAttribute a)) (TyAttribute a') -> s <> [] /\ sdp_name a' = sdp_name a /\ attr_value (trim_end s) a'.
Proof.
  intros a a' t s F T Ty M. unfold printed_line, line_letter, item_text in M.
  apply means_plain in M; [|reflexivity|discriminate]. destruct M as [_ (u & C & V)]. cbn [type_value] in *.
  rewrite T in C. unfold attr_to_string in C. destruct (name_word a) as (N1 & N2 & _). destruct (name_word a') as (N1' & N2' & _).
  destruct s as [|c s].
  - exfalso. cbn [is_empty] in C. apply core_nil in C. subst u. destruct V as [(_ & M & _)|(n & r & K & _)].
    + apply means_iff in M; [|destruct a'; reflexivity]. cbn in M. destruct N1' as [N1' _]. congruence.
    + exact (cut_nil _ _ _ K).
  - split; [discriminate|]. cbn [is_empty] in C. rewrite Ty in C. unfold c_colon in C. cbn [app] in C.
    apply core_trim in C.
    assert (S : starts_ok (of_string (sdp_name a) ++ [58])) by (apply starts_ok_app, word_starts, N1).
    rewrite (trim_mid _ _ _ S eq_refl) in C. subst u.
    destruct V as [(K & _)|(n & r & K & M & V)].
    + exfalso. apply K, in_or_app. right. left. reflexivity.
    + destruct (cut_fun _ _ _ _ _ _ K (conj eq_refl N2)) as [-> ->]. split; [|exact V].
      apply means_iff in M; [|destruct a'; reflexivity]. clear - M.
      destruct a, a'; vm_compute in M; first [reflexivity | discriminate M].
Qed.

(** ** msid-semantic *)
Lemma msid_semantic_settles : forall m m', attr_wf (AMsidSemantic m) -> ms_msids m = [] ->
  attr_value (trim_end (show_msid_semantic m)) (AMsidSemantic m') ->
  shrinks (show_msid_semantic m) (show_msid_semantic m') /\ ms_msids m' <> [].
Proof.
  intros m m' [W _] N V. cbn [attr_value] in V. unfold msid_semantic_value in V. apply (proj1 (trim_end_words _ _)) in V.
  unfold show_msid_semantic in V |- *. rewrite N in *. apply words_sws in V. rewrite sws_cons_sp in V by (apply word_token, W).
  destruct m' as [x l]. cbn [ms_semantic ms_msids] in *. injection V as V1 V2. vm_compute in V2. rewrite <- V1, <- V2.
  split; [left; reflexivity | discriminate].
Qed.

(** ** simulcast *)
Definition versions_ok (l : list simulcast_version) : Prop := Forall (fun v => v <> [] /\ Forall simulcast_id_wf v) l.
Lemma version_no_semi : forall v, Forall simulcast_id_wf v -> ~ In 59 (show_simulcast_version v).
Proof.
  intros v F. unfold show_simulcast_version. apply join_no; [intros [K|[]]; discriminate K|].
  apply Forall_map_in. intros i Ii. apply id_text, (Forall_in _ _ _ F Ii).
Qed.
Lemma version_eq_sign : forall v, Exists (fun i => In 61 (sid_id i)) v -> In 61 (show_simulcast_version v).
Proof.
  intros v L. apply Exists_exists in L. destruct L as (i & Ii & I61). unfold show_simulcast_version.
  apply (in_join _ _ (show_simulcast_id i)); [apply in_map, Ii|].
  unfold show_simulcast_id. apply in_or_app. right. exact I61.
Qed.
Lemma list_settles : forall l l', versions_ok l -> printed_versions l <> [] -> simulcast_list_value (printed_versions l) l' ->
  l' <> [] /\ shrinks (printed_versions l) (printed_versions l') /\
  (~ In 61 (printed_versions l) -> ~ Exists version_lossy l').
Proof.
  intros l l' W N (body & vs & C & F & V).
  assert (Ev : vs = map show_simulcast_version l').
  { clear - V. induction V as [|t v ts l0 H V IH]; [reflexivity|]. cbn [map]. f_equal; [apply version_read, H | exact IH]. }
  destruct (fields_join_inv _ _ _ F) as [Eb Nv]. split; [intros ->; exact (Nv Ev)|]. split.
  - assert (S1 : shrinks (printed_versions l) body).
    { destruct C as [[C _]|[_ ->]]; [|apply shr_refl]. right. rewrite C, app_length. cbn. lia. }
    apply (shr_trans _ _ _ S1). rewrite Eb, Ev. apply shr_filter.
  - intros N61 L. destruct C as [[C _]|[_ C]]; [apply N61; rewrite C; apply in_or_app; right; left; reflexivity|].
    set (us := filter non_empty (map show_simulcast_version l)).
    assert (Nu : us <> []) by (intro K; apply N; unfold printed_versions; fold us; rewrite K; reflexivity).
    assert (Fu : fields 59 body us).
    { rewrite C. unfold printed_versions. fold us. apply fields_join; [exact Nu|]. apply Forall_forall. intros t Ht.
      apply filter_In in Ht. destruct Ht as [Ht _]. apply in_map_iff in Ht. destruct Ht as (v & <- & Iv).
      apply version_no_semi. exact (proj2 (Forall_in _ _ _ W Iv)). }
    apply fields_split in F, Fu. assert (Eq : us = map show_simulcast_version l') by congruence.
    apply Exists_exists in L. destruct L as (v & Iv & [Lv|Lv]).
    + assert (K : In [] us) by (rewrite Eq; apply in_map_iff; exists v; split; [subst v; reflexivity | exact Iv]).
      apply filter_In in K. destruct K as [_ K]. discriminate K.
    + apply N61. unfold printed_versions. fold us. apply (in_join _ _ (show_simulcast_version v));
        [rewrite Eq; apply in_map, Iv | apply version_eq_sign, Lv].
Qed.
Lemma printed_no_eq : forall l, ~ Exists (fun v => Exists (fun i => In 61 (sid_id i)) v) l -> ~ In 61 (printed_versions l).
Proof.
  intros l H. unfold printed_versions. apply join_no; [intros [K|[]]; discriminate K|]. apply Forall_forall. intros t Ht.
  apply filter_In in Ht. destruct Ht as [Ht _]. apply in_map_iff in Ht. destruct Ht as (v & <- & Iv).
  unfold show_simulcast_version. apply join_no; [intros [K|[]]; discriminate K|]. apply Forall_map_in. intros i Ii K.
  apply H, Exists_exists. exists v. split; [exact Iv|]. apply Exists_exists. exists i. split; [exact Ii|].
  unfold show_simulcast_id in K. apply in_app_or in K. destruct K as [K|K]; [|exact K].
  destruct (sid_paused i); [destruct K as [K|[]]; discriminate K | destruct K].
Qed.
Definition side (d : str) (l : list simulcast_version) : str := match l with [] => [] | _ => d ++ 32 :: printed_versions l end.
Lemma show_sides : forall s, show_simulcast s =
  join [32] (filter non_empty [side (lit "send") (sim_send s); side (lit "recv") (sim_receive s)]).
Proof.
  intro s. unfold show_simulcast, non_empty_vec. apply f_equal2; [reflexivity|]. f_equal.
  apply f_equal2; [|apply f_equal2; [|reflexivity]].
  - unfold show_vec, side, printed_versions. destruct (sim_send s); [reflexivity|]. rewrite app_nil_r. reflexivity.
  - unfold show_vec, side, printed_versions. destruct (sim_receive s); [reflexivity|]. rewrite app_nil_r. reflexivity.
Qed.
Lemma show_one_side : forall s l, (sim_send s = l /\ sim_receive s = [] /\ l <> [] -> show_simulcast s = lit "send" ++ 32 :: printed_versions l) /\
  (sim_send s = [] /\ sim_receive s = l /\ l <> [] -> show_simulcast s = lit "recv" ++ 32 :: printed_versions l).
Proof.
  intros s l. split; intros (K1 & K2 & N); rewrite show_sides, K1, K2; destruct l; try congruence; reflexivity.
Qed.
Lemma show_two_sides : forall s, sim_send s <> [] -> sim_receive s <> [] ->
  show_simulcast s = lit "send" ++ 32 :: printed_versions (sim_send s) ++ 32 :: lit "recv" ++ 32 :: printed_versions (sim_receive s).
Proof.
  intros s K1 K2. rewrite show_sides. destruct (sim_send s) as [|v1 r1]; [congruence|]. destruct (sim_receive s) as [|v2 r2]; [congruence|].
  cbn [side]. set (P1 := printed_versions (v1 :: r1)). set (P2 := printed_versions (v2 :: r2)). cbn. reflexivity.
Qed.
Lemma words_one : forall d l rest, word d -> versions_ok l -> (rest = [] \/ exists r, rest = 32 :: r) ->
  split_whitespace (d ++ 32 :: printed_versions l ++ rest) =
  d :: (if is_empty (printed_versions l) then [] else [printed_versions l]) ++ split_whitespace rest.
Proof.
  intros d l rest D F R. rewrite sws_cons by (first [apply word_token, D | reflexivity]). f_equal.
  destruct (printed_versions l) as [|c x] eqn:K; [reflexivity|]. rewrite <- K.
  assert (Ne : printed_versions l <> []) by (rewrite K; discriminate).
  assert (Wd : word (printed_versions l)) by (apply versions_word; [exact F | exact Ne]).
  rewrite (proj2 (is_empty_false _) Ne). destruct R as [->|(r & ->)].
  - rewrite app_nil_r, sws_one by (apply word_token, Wd). reflexivity.
  - rewrite sws_cons by (first [apply word_token, Wd | reflexivity]). rewrite sws_ws by reflexivity. reflexivity.
Qed.

Lemma recv_alone : lit "recv" = printed_versions [[{| sid_id := lit "recv"; sid_paused := false |}]] /\
  versions_ok [[{| sid_id := lit "recv"; sid_paused := false |}]].
Proof.
  split; [reflexivity|]. constructor; [|constructor]. split; [discriminate|]. constructor; [|constructor].
  split; [repeat constructor|]. split; [apply not_in_b; reflexivity|]. split; [apply not_in_b; reflexivity|]. intros _ x. discriminate.
Qed.
Lemma simulcast_settles : forall s q, attr_wf (ASimulcast s) -> attr_value (trim_end (show_simulcast s)) (ASimulcast q) ->
  shrinks (show_simulcast s) (show_simulcast q) /\ (~ unsettled (ASimulcast s) -> ~ simulcast_lossy q).
Proof.
  intros s q [W N] V. apply Forall_app in W. destruct W as [W1 W2]. fold (versions_ok (sim_send s)) in W1. fold (versions_ok (sim_receive s)) in W2.
  assert (Wd : word (lit "send") /\ word (lit "recv")) by (split; (split; [discriminate | repeat constructor])).
  destruct Wd as [Ws Wr]. cbn [attr_value] in V.
  destruct V as (d & first & more & Hw & dir & l1 & l2 & D & V1 & V2 & Q). apply (proj1 (trim_end_words _ _)) in Hw. apply words_sws in Hw.
  assert (U : ~ unsettled (ASimulcast s) -> ~ In 61 (printed_versions (sim_send s)) /\ ~ In 61 (printed_versions (sim_receive s))).
  { intro K. cbn [unsettled] in K. split; apply printed_no_eq; intro K'; apply K, Exists_app; [left | right]; exact K'. }
  assert (Lq : simulcast_lossy q -> Exists version_lossy (sim_send q) \/ Exists version_lossy (sim_receive q)) by apply lossy_list.
  destruct (sim_send s) as [|v1 r1] eqn:E1.
  - (* only recv *)
    assert (N2 : sim_receive s <> []) by exact N.
    rewrite (proj2 (show_one_side s (sim_receive s)) (conj E1 (conj eq_refl N2))) in *.
    rewrite <- (app_nil_r (printed_versions (sim_receive s))), (words_one _ _ [] Wr W2 (or_introl eq_refl)) in Hw.
    destruct (is_empty (printed_versions (sim_receive s))) eqn:P; [discriminate Hw|].
    apply is_empty_false in P. rewrite sws_nil, app_nil_r in Hw. injection Hw as <- <- <-.
    destruct dir; [discriminate D|]. destruct Q as [Q1 Q2]. subst l2.
    destruct (list_settles _ _ W2 P V1) as (N1 & Sh & L). split.
    + rewrite (proj2 (show_one_side q l1) (conj Q1 (conj Q2 N1))). apply shr_app; [apply shr_refl | apply shr_cons, Sh].
    + intros K K'. destruct (U K) as [_ U2]. apply Lq in K'. rewrite Q1, Q2 in K'. destruct K' as [K'|K']; [inversion K' | exact (L U2 K')].
  - rewrite <- E1 in *. assert (N1 : sim_send s <> []) by (rewrite E1; discriminate).
    destruct (sim_receive s) as [|v2 r2] eqn:E2.
    + rewrite (proj1 (show_one_side s (sim_send s)) (conj eq_refl (conj E2 N1))) in *.
      rewrite <- (app_nil_r (printed_versions (sim_send s))), (words_one _ _ [] Ws W1 (or_introl eq_refl)) in Hw.
      destruct (is_empty (printed_versions (sim_send s))) eqn:P; [discriminate Hw|].
      apply is_empty_false in P. rewrite sws_nil, app_nil_r in Hw. injection Hw as <- <- <-.
      destruct dir; [|discriminate D]. destruct Q as [Q1 Q2]. subst l2.
      destruct (list_settles _ _ W1 P V1) as (N1' & Sh & L). split.
      * rewrite (proj1 (show_one_side q l1) (conj Q1 (conj Q2 N1'))). apply shr_app; [apply shr_refl | apply shr_cons, Sh].
      * intros K K'. destruct (U K) as [U1 _]. apply Lq in K'. rewrite Q1, Q2 in K'. destruct K' as [K'|K']; [exact (L U1 K') | inversion K'].
    + rewrite <- E2 in *. assert (N2 : sim_receive s <> []) by (rewrite E2; discriminate).
      rewrite (show_two_sides s N1 N2) in *.
      rewrite (words_one _ _ (32 :: lit "recv" ++ 32 :: printed_versions (sim_receive s)) Ws W1) in Hw by (right; eexists; reflexivity).
      rewrite sws_ws in Hw by reflexivity.
      rewrite <- (app_nil_r (printed_versions (sim_receive s))), (words_one _ _ [] Wr W2 (or_introl eq_refl)), sws_nil, app_nil_r in Hw.
      destruct (is_empty (printed_versions (sim_send s))) eqn:P1.
      * cbn [app] in Hw. injection Hw as <- <- <-. destruct dir; [|discriminate D]. destruct Q as [Q1 Q2].
        destruct (is_empty (printed_versions (sim_receive s))) eqn:P2; [|destruct V2]. subst l2.
        apply is_empty_true in P1, P2. rewrite P1, P2. destruct recv_alone as [Re Rw]. rewrite Re in V1.
        destruct (list_settles _ _ Rw ltac:(discriminate) V1) as (N1' & Sh & L). rewrite <- Re in Sh, L. split.
        -- rewrite (proj1 (show_one_side q l1) (conj Q1 (conj Q2 N1'))). apply shr_le in Sh. right. rewrite app_length. cbn [List.length].
           change (List.length (lit "recv")) with 4%nat in Sh. change (List.length (lit "send")) with 4%nat.
           match goal with |- (_ < ?n)%nat => change n with 11%nat end. lia.
        -- intros K K'. apply Lq in K'. rewrite Q1, Q2 in K'. destruct K' as [K'|K']; [|inversion K'].
           refine (L _ K'). apply not_in_b. reflexivity.
      * cbn [app] in Hw. injection Hw as <- <- <-. destruct dir; [|discriminate D]. destruct Q as [Q1 Q2].
        destruct (is_empty (printed_versions (sim_receive s))) eqn:P2; [destruct V2|]. destruct V2 as [_ V2].
        apply is_empty_false in P1, P2.
        destruct (list_settles _ _ W1 P1 V1) as (M1 & S1 & L1). destruct (list_settles _ _ W2 P2 V2) as (M2 & S2 & L2). split.
        -- rewrite (show_two_sides q) by congruence. rewrite Q1, Q2.
           apply shr_app; [apply shr_refl|]. apply shr_cons, shr_app; [exact S1|]. apply shr_cons, shr_app; [apply shr_refl | apply shr_cons, S2].
        -- intros K K'. destruct (U K) as [U1 U2]. apply Lq in K'. rewrite Q1, Q2 in K'. destruct K' as [K'|K']; [exact (L1 U1 K') | exact (L2 U2 K')].
Qed.
End WithExt.

(** * What lines of the RFCs that refer to each other say (C62) *)
From Coq Require Import List Arith NArith ZArith Lia Bool Ascii String.
From Coq Require Import ZifyBool ZifyNat ZifyN.
From Verif Require Import Str Num Net Types Ext Show Address AttrParse Media Session SpecApi SpecDoc SpecVal SpecItems
  SpecPrint SpecIp SpecGrammar SpecWhy.
From Verif Require Import StrLemmas PVal PDoc PWhy.
From Verif Require Import SpecRfc.
Import ListNotations.
Open Scope N_scope.
Open Scope list_scope.

Section WithExt.
Context {E : Ext}.

Lemma blank_cons_no : forall c w x y, is_ws c = false -> blank w -> c :: x = w ++ y -> w = [] /\ y = c :: x.
Proof. intros c [|d w] x y C B Q; [auto|]. inversion Q; subst. inversion B; congruence. Qed.
Lemma cut_once : forall sep v a b a' b', cut sep v a b -> cut sep v a' b' -> a = a' /\ b = b'.
Proof.
  intros sep v a b a' b' [-> N] [Q N']. revert a' N' Q. induction a as [|c a IH]; intros [|c' a'] N' Q; cbn in *.
  - injection Q as <-. auto.
  - injection Q as -> _. tauto.
  - injection Q as <- _. tauto.
  - injection Q as <- Q. destruct (IH ltac:(tauto) a' ltac:(tauto) Q) as [-> ->]. auto.
Qed.
Lemma blank_no : forall c w, is_ws c = false -> blank w -> ~ In c w.
Proof. intros c w C B I. unfold blank in B. rewrite Forall_forall in B. rewrite (B c I) in C. discriminate. Qed.
(** A line with a known name. *)
Lemma line_letter_inv : forall c v ty, is_ws c = false -> line_means (c :: 61 :: v) ty ->
  same_letter c (line_letter ty) /\ type_value v ty.
Proof.
  intros c v ty C (w1 & k & w2 & u & Q & B1 & B2 & L & T). destruct (blank_cons_no _ _ _ _ C B1 Q) as [-> Q1]. injection Q1 as <- Q2.
  destruct (blank_cons_no 61 _ _ _ eq_refl B2 (eq_sym Q2)) as [-> Q3]. injection Q3 as <-. auto.
Qed.
Lemma attr_line_named : forall n v a, n <> [] -> Forall (fun c => is_ws c = false) n -> ~ In 58 n ->
  line_means (97 :: 61 :: n ++ 58 :: v) (TyAttribute a) -> means n (sdp_name a) /\ exists u w, v = u ++ w /\ blank w /\ attr_value u a.
Proof.
  intros n v a Nn Fn N M. apply line_letter_inv in M; [|reflexivity]. destruct M as [_ (t & (w1 & w2 & Q & B1 & B2 & _) & T)].
  destruct n as [|c n]; [congruence|]. inversion Fn; subst. cbn [app] in Q. destruct (blank_cons_no _ _ _ _ ltac:(eassumption) B1 Q) as [-> Q1].
  assert (I58 : In 58 t).
  { assert (X : In 58 (t ++ w2)) by (rewrite Q1; right; apply in_app_iff; right; left; reflexivity).
    apply in_app_iff in X. destruct X as [X|X]; [exact X|]. destruct (blank_no 58 w2 eq_refl B2 X). }
  destruct T as [(X & _)|(name & rest & [-> K] & Me & V)]; [contradiction|].
  destruct (cut_once 58 (c :: n ++ 58 :: v) (c :: n) v name (rest ++ w2)) as [<- ->].
  - split; [reflexivity|exact N].
  - split; [|exact K]. rewrite <- Q1, <- app_assoc. reflexivity.
  - split; [exact Me|]. exists rest, w2. auto.
Qed.
Lemma attr_line_inv : forall n v a, n <> [] -> Forall (fun c => is_ws c = false) n -> ~ In 58 n ->
  line_means (97 :: 61 :: n ++ 58 :: v) (TyAttribute a) -> exists u w, v = u ++ w /\ blank w /\ attr_value u a.
Proof. intros n v a A B C D. exact (proj2 (attr_line_named n v a A B C D)). Qed.
Lemma core_more : forall u w t, core u t -> blank w -> core (u ++ w) t.
Proof.
  intros u w t (w1 & w2 & -> & B1 & B2 & T) B. exists w1, (w2 ++ w). split; [rewrite <- !app_assoc; reflexivity|].
  split; [exact B1|]. split; [apply Forall_app; auto|exact T].
Qed.

Lemma words_pad : forall u w l, words u l -> blank w -> words (u ++ w) l.
Proof.
  intros u w l W B. induction W as [x Bx|x t Bx Wt|x t c s l Bx Wt C W IH].
  - apply words_none. apply Forall_app. auto.
  - destruct w as [|c w]; [rewrite app_nil_r; apply words_last; assumption|]. rewrite <- app_assoc. cbn [app].
    inversion B; subst. change (c :: w) with ([] ++ c :: w). apply words_more; [assumption|assumption|assumption|apply words_none; assumption].
  - rewrite <- app_assoc, <- app_assoc. cbn [app]. apply words_more; assumption.
Qed.

(** What a rid line declares. *)
Lemma prefix_space : forall (a x r y w : str), a ++ x = y ++ w -> blank w -> a <> [] -> Forall (fun c => is_ws c = false) a ->
  exists z, y = a ++ z /\ x = z ++ w.
Proof.
  intros a x r y w Q B Na Fa. apply app_eq_app in Q. destruct Q as [z [[-> ->]|[-> ->]]]; [|exists z; auto].
  destruct z as [|c z]; [exists []; rewrite !app_nil_r; split; reflexivity|]. exfalso. apply Forall_app in Fa. destruct Fa as [_ Fa]. inversion Fa; subst.
  cbn [app] in B. inversion B; congruence.
Qed.
Lemma declared : forall d id t r, declares_rid d id t -> line_means t (TyAttribute (ARid r)) -> rid_id r = id /\ rid_direction r = d.
Proof.
  intros d id t r (rest & -> & [Ni Fi] & R) M.
  change (lit "a=rid:" ++ id ++ 32 :: of_string (single_direction_name d) ++ rest) with
    (97 :: 61 :: lit "rid" ++ 58 :: id ++ 32 :: of_string (single_direction_name d) ++ rest) in M.
  apply attr_line_inv in M; [|discriminate|repeat constructor|intros X; vm_compute in X; intuition discriminate].
  destruct M as (u & w & Q & B & (t & dir & more & C & S3 & D & _)). 
  apply (core_more u w) in C; [|exact B]. rewrite <- Q in C. clear Q B. destruct C as (w1 & w2 & Q & B1 & B2 & _).
  assert (N32 : ~ In 32 id) by (intros X; rewrite Forall_forall in Fi; specialize (Fi 32 X); discriminate).
  destruct id as [|c id]; [congruence|]. inversion Fi as [|? ? Fc Fi']; subst. destruct (blank_cons_no c w1 _ _ Fc B1 Q) as [-> Q1].
  change (c :: id ++ 32 :: of_string (single_direction_name d) ++ rest) with ((c :: id) ++ 32 :: of_string (single_direction_name d) ++ rest) in Q1.
  set (n := of_string (single_direction_name d)) in *.
  assert (Wn : n <> [] /\ Forall (fun c => is_ws c = false) n /\ ~ In 32 n) by (unfold n; destruct d; cbn; repeat split; try discriminate; try (repeat constructor); intuition discriminate).
  destruct Wn as (Nn & Fn & N32n).
  assert (T : exists z, t = (c :: id) ++ 32 :: n ++ z /\ rest = z ++ w2).
  { assert (Q2 : (c :: id) ++ (32 :: n ++ rest) = t ++ w2) by (symmetry; exact Q1). clear Q1. destruct (app_eq_app _ _ _ _ Q2) as [z [[X Y]|[X Y]]].
    - exfalso. destruct w2 as [|k w2]; [destruct z; discriminate Y|].
      assert (In_n : forall k', In k' n -> is_ws k' = true).
      { intros k' I. unfold blank in B2. rewrite Forall_forall in B2. apply B2. rewrite Y. apply in_app_iff. right. right. apply in_app_iff. left. exact I. }
      destruct n as [|k' n']; [congruence|]. specialize (In_n k' (or_introl eq_refl)). inversion Fn; congruence.
    - destruct z as [|s z]; [cbn in Y|].
      + exfalso. destruct w2 as [|k w2]; [discriminate|]. injection Y as <- Y. inversion B2 as [|? ? _ B2']; subst.
        destruct n as [|k' n']; [congruence|]. cbn in B2'. inversion B2'; inversion Fn; congruence.
      + injection Y as <- Y. destruct (prefix_space n rest [] z w2 Y B2 Nn Fn) as (z' & -> & ->). exists z'. auto. }
  destruct T as (z & -> & ->). cbn [space_parts] in S3.
  destruct S3 as [[X _]|(a & b & r0 & K & L & P)]; [exfalso; apply X; apply in_app_iff; right; left; reflexivity|].
  destruct (cut_once 32 _ (c :: id) (n ++ z) a b (conj eq_refl N32) K) as [<- <-]. injection L as -> <-. split; [reflexivity|].
  assert (DN : dir = n).
  { destruct P as [[X L]|(a & b & r1 & K2 & L & P)].
    - injection L as -> _. destruct z as [|k z]; [apply app_nil_r|]. destruct R as [R|[r2 R]]; [discriminate|]. injection R as -> _.
      exfalso. apply X. apply in_app_iff. right. left. reflexivity.
    - injection L as -> _. destruct z as [|k z].
      + exfalso. rewrite app_nil_r in K2. destruct K2 as [-> _]. apply N32n. apply in_app_iff. right. left. reflexivity.
      + destruct R as [R|[r2 R]]; [discriminate|]. injection R as -> _. symmetry. apply (cut_once 32 (n ++ 32 :: z) n z a b); [split; auto|exact K2]. }
  subst dir. unfold is_word in D. unfold n in D. destruct d, (rid_direction r); try reflexivity; vm_compute in D; discriminate D.
Qed.

Lemma rid_line : forall d id t ty, declares_rid d id t -> line_means t ty -> exists r, ty = TyAttribute (ARid r).
Proof.
  intros d id t ty (rest & -> & _ & _) M. change (lit "a=rid:" ++ ?x) with (97 :: 61 :: lit "rid" ++ 58 :: x) in M.
  pose proof (line_letter_inv 97 _ _ eq_refl M) as [L _]. destruct ty as [a|b|c|m|o|x|t|v]; try discriminate L.
  apply attr_line_named in M; [|discriminate|repeat constructor|intros X; vm_compute in X; intuition discriminate].
  destruct M as [N _]. apply means_iff in N; [|destruct a; reflexivity].
  destruct a; try (vm_compute in N; discriminate N). eexists. reflexivity.
Qed.

(** What a simulcast line uses. *)
Lemma used : forall v sc, line_means (lit "a=simulcast:" ++ v) (TyAttribute (ASimulcast sc)) ->
  (forall x i, In x (sim_send sc) -> In i x -> uses_rid Send (sid_id i) (lit "a=simulcast:" ++ v)) /\
  (forall x i, In x (sim_receive sc) -> In i x -> uses_rid Recv (sid_id i) (lit "a=simulcast:" ++ v)).
Proof.
  intros v sc M. change (lit "a=simulcast:" ++ v) with (97 :: 61 :: lit "simulcast" ++ 58 :: v) in M.
  apply attr_line_inv in M; [|discriminate|repeat constructor|intros X; vm_compute in X; intuition discriminate].
  destruct M as (u & w & Q & B & (d & first & more & W & dir & l1 & l2 & D & V1 & V2 & R)).
  apply (words_pad u w) in W; [|exact B]. rewrite <- Q in W. unfold is_word in D. subst d.
  assert (L : forall d lst l before after, simulcast_list_value lst l ->
     words v (before ++ of_string (single_direction_name d) :: lst :: after) ->
     forall x i, In x l -> In i x -> uses_rid d (sid_id i) (lit "a=simulcast:" ++ v)).
  { intros d lst l before after (body & vs & Bd & F & G) Wd x i Ix Ii.
    assert (J : exists y alts, In y vs /\ fields 44 y alts /\ (In (sid_id i) alts \/ In (126 :: sid_id i) alts)).
    { clear -G Ix Ii. induction G as [|y x' vs l H G IH]; [destruct Ix|]. destruct Ix as [->|Ix].
      - destruct H as (alts & Fa & H). exists y, alts. split; [left; reflexivity|]. split; [exact Fa|].
        clear -H Ii. induction H as [|t j alts l H G IH]; [destruct Ii|]. destruct Ii as [->|Ii].
        + unfold simulcast_id_value in H. destruct (sid_paused i); [right; left; exact H|left; left; exact (proj1 H)].
        + destruct (IH Ii) as [X|X]; [left|right]; right; exact X.
      - destruct (IH Ix) as (y' & alts & I & X). exists y', alts. split; [right; exact I|exact X]. }
    destruct J as (y & alts & I & Fa & A). exists v, before, lst, after, body, vs, alts. split; [reflexivity|]. split; [exact Wd|].
    split; [destruct Bd as [[-> _]|[_ ->]]; auto|]. split; [exact F|]. split; [apply Exists_exists; eauto|exact A]. }
  assert (L1 := L dir first l1 [] more V1 W).
  assert (L2 : forall x i, In x l2 -> In i x -> uses_rid match dir with Send => Recv | Recv => Send end (sid_id i) (lit "a=simulcast:" ++ v)).
  { destruct more as [|d2 [|second after]]; [subst l2; intros x i []|destruct V2|]. destruct V2 as [D2 V2]. unfold is_word in D2. subst d2.
    exact (L _ second l2 [of_string (single_direction_name dir); first] after V2 W). }
  destruct dir; destruct R as [-> ->]; auto.
Qed.

(** The payload types of a rid line and of an m= line. *)
Lemma payload_used : forall v r n, line_means (lit "a=rid:" ++ v) (TyAttribute (ARid r)) -> In n (rid_formats r) ->
  uses_payload n (lit "a=rid:" ++ v).
Proof.
  intros v r n M I. change (lit "a=rid:" ++ v) with (97 :: 61 :: lit "rid" ++ 58 :: v) in M.
  apply attr_line_inv in M; [|discriminate|repeat constructor|intros X; vm_compute in X; intuition discriminate].
  destruct M as (u & w & Q & B & (t & dir & more & C & S3 & _ & P)). apply (core_more u w) in C; [|exact B]. rewrite <- Q in C.
  destruct more as [|params more]; [destruct P as [P _]; rewrite P in I; destruct I|].
  destruct P as (ps & F & [(pts & fs & rest & -> & F4 & G & _)|(_ & P & _)]); [|rewrite P in I; destruct I].
  assert (T : exists before, t = before ++ 32 :: params).
  { cbn [space_parts] in S3. destruct S3 as [[_ X]|(a & b & l & [-> _] & L & S2)]; [discriminate|]. injection L as _ <-.
    destruct S2 as [[_ X]|(a2 & b2 & l2 & [-> _] & L & S1)]; [discriminate|]. injection L as _ <-. injection S1 as <- _.
    exists (a ++ 32 :: a2). rewrite <- app_assoc. reflexivity. }
  destruct T as [before ->]. exists v, (before ++ 32 :: params), before, params, pts, rest, fs. repeat (split; [assumption||reflexivity|]).
  apply Exists_exists. clear -G I. induction G as [|f k fs l H G IH]; [destruct I|]. destruct I as [->|I].
  - exists f. split; [left; reflexivity|exact H].
  - destruct (IH I) as (f' & I' & H'). exists f'. split; [right; exact I'|exact H'].
Qed.
Lemma payload_listed_in : forall n t m, lists_payload n t -> line_means t (TyMedia m) -> format_listed (ml_formats m) n.
Proof.
  intros n t m (v & kind & port & proto & fmts & d & -> & W & I & Nd & Fd & V & Z) M.
  change (lit "m=" ++ v) with (109 :: 61 :: v) in M. apply line_letter_inv in M; [|reflexivity].
  destruct M as [_ (kind' & port' & proto' & fmts' & W' & _ & _ & _ & _ & F)]. apply words_sws in W, W'. rewrite W in W'. injection W' as <- <- <- <-.
  assert (X : (exists l, ml_formats m = Integers l /\ Forall2 (fun t n => numeral u32_max t n /\ payload_listed n) fmts l) \/
              ml_formats m = Strings fmts) by (destruct (ml_media m); auto).
  destruct X as [(l & -> & G)| ->]; cbn [format_listed].
  - clear -I G Nd Fd V. induction G as [|t k fmts l [H _] G IH]; [destruct I|]. destruct I as [->|I]; [|right; auto].
    left. destruct H as (ds & [->| ->] & _ & _ & -> & _); [exact V|]. exfalso. inversion Fd as [|? ? X]. unfold is_digit in X. lia.
  - assert (Q : d = show_N n) by (apply decimal_iff; repeat (split; [assumption|]); assumption). rewrite <- Q. exact I.
Qed.
End WithExt.

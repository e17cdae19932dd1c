(** * Sizes (C64) *)
From Coq Require Import List Arith NArith ZArith Bool Ascii String Lia.
From Verif Require Import Str Num Net Types Ext SpecApi SpecDoc SpecVal SpecItems SpecSize StrLemmas Session PVal8 PVal9 PDoc2.
Import ListNotations.
Open Scope nat_scope.
Open Scope list_scope.

(** ** Sums *)
Lemma sum_app : forall A (f : A -> nat) a b, sum f (a ++ b) = sum f a + sum f b.
Proof. intros A f a b. unfold sum. induction a as [|x a IH]; [reflexivity|]. cbn [app fold_right]. rewrite IH. lia. Qed.
Lemma sum_cons : forall A (f : A -> nat) x l, sum f (x :: l) = S (f x) + sum f l.
Proof. reflexivity. Qed.
Lemma sum_nil : forall A (f : A -> nat), sum f [] = 0.
Proof. reflexivity. Qed.
Lemma sum_one : forall A (f : A -> nat) x, sum f [x] = S (f x).
Proof. intros. unfold sum. cbn [fold_right]. lia. Qed.
Lemma sum_length : forall A (f : A -> nat) l, List.length l <= sum f l.
Proof. intros A f l. induction l as [|x l IH]; [apply le_n|]. rewrite sum_cons. cbn. lia. Qed.
Lemma sum_forall2 : forall A B (f : A -> nat) (g : B -> nat) (R : A -> B -> Prop) l m,
  (forall x y, R x y -> g y <= f x) -> Forall2 R l m -> sum g m <= sum f l.
Proof. intros A B f g R l m H F. induction F; [apply le_n|]. rewrite !sum_cons. apply H in H0. lia. Qed.
Lemma forall2_len : forall A B (R : A -> B -> Prop) l m, Forall2 R l m -> List.length l = List.length m.
Proof. intros A B R l m F. induction F; cbn; congruence. Qed.
Lemma sum_in : forall A (f : A -> nat) x l, In x l -> S (f x) <= sum f l.
Proof. intros A f x l. induction l as [|y l IH]; intros []; rewrite sum_cons; [subst; lia|]. apply IH in H. lia. Qed.
Lemma sum_filter : forall A (f : A -> nat) p l, sum f (filter p l) <= sum f l.
Proof. intros A f p l. induction l as [|x l IH]; [apply le_n|]. cbn [filter]. destruct (p x); rewrite ?sum_cons; lia. Qed.
Lemma last_in : forall A (l : list A) x, last_of l = Some x -> In x l.
Proof.
  intros A l x. unfold last_of. induction l as [|y l IH] using rev_ind; [discriminate|].
  rewrite rev_app_distr. cbn. intros H. injection H as ->. apply in_or_app. right. left. reflexivity.
Qed.

Lemma text_app : forall a b, text (a ++ b) = text a + text b.
Proof. intros. apply app_length. Qed.
Lemma text_cons : forall c s, text (c :: s) = S (text s).
Proof. reflexivity. Qed.

(** ** Pieces of a text *)
Lemma words_size : forall v l, words v l -> sum text l <= S (text v).
Proof.
  intros v l H. unfold text. induction H; rewrite ?sum_cons, ?app_length; cbn [sum fold_right List.length]; lia.
Qed.
Lemma fields_size : forall sep v l, fields sep v l -> sum text l = S (text v).
Proof.
  intros sep v l H. unfold text. induction H; rewrite ?sum_cons, ?app_length; cbn [sum fold_right List.length]; lia.
Qed.
Lemma core_size : forall v t, core v t -> text t <= text v.
Proof. intros v t (w1 & w2 & -> & _). unfold text. rewrite !app_length. lia. Qed.
Lemma cut_size : forall sep s a b, cut sep s a b -> text s = S (text a + text b).
Proof. intros sep s a b [-> _]. unfold text. rewrite app_length. cbn. lia. Qed.
Lemma parts_size : forall n s l, space_parts n s l -> sum text l <= S (text s).
Proof.
  induction n as [|n IH]; intros s l H; [destruct H|]. cbn [space_parts] in H. destruct n as [|n].
  - subst l. rewrite sum_one. lia.
  - destruct H as [[_ ->]|(a & b & r & C & -> & R)]; [rewrite sum_one; lia|]. apply IH in R. apply cut_size in C. rewrite sum_cons. lia.
Qed.
Lemma join_size : forall sep l, l <> [] -> S (text (join [sep] l)) = sum text l.
Proof.
  intros sep l. induction l as [|x l IH]; intros H; [congruence|]. destruct l as [|y l].
  - rewrite sum_one. reflexivity.
  - specialize (IH ltac:(discriminate)). change (join [sep] (x :: y :: l)) with (x ++ [sep] ++ join [sep] (y :: l)).
    rewrite sum_cons, <- IH. unfold text. rewrite !app_length. cbn [List.length]. lia.
Qed.
Lemma tokens_size : forall sep s l, bracket_tokens sep s l -> sum text l <= S (text s).
Proof.
  intros sep s l (groups & left & F & G & _ & ->). apply fields_size in F. rewrite sum_app in F.
  enough (sum text (map (join [sep]) groups) <= sum text (List.concat groups)) by lia. clear F.
  induction G as [|g groups H G IH]; [apply le_n|]. cbn [map List.concat]. rewrite sum_cons, sum_app.
  destruct H as (i & t & -> & _). rewrite join_size by (destruct i; discriminate). lia.
Qed.
Lemma pair_size_eq : forall a b, pair_size (a, b) = text a + text b.
Proof. reflexivity. Qed.
Lemma given_size : forall is ps vs, given is ps vs -> sum text vs <= sum pair_size ps.
Proof. intros is ps vs H. induction H; rewrite ?sum_cons, ?sum_nil, ?pair_size_eq; lia. Qed.
Lemma others_size : forall known ps us, others known ps us -> sum pair_size us <= sum pair_size ps.
Proof. intros known ps us H. induction H; rewrite ?sum_cons, ?sum_nil; lia. Qed.
Lemma in_pairs_size : forall l ps, in_pairs l = Some ps -> sum pair_size ps + List.length ps = sum text l.
Proof.
  fix IH 1. intros [|a [|b l]] ps H; cbn [in_pairs] in H; [injection H as <-; reflexivity|discriminate|].
  destruct (in_pairs l) as [p|] eqn:Q; [|discriminate]. injection H as <-. apply IH in Q. rewrite !sum_cons, pair_size_eq. cbn [List.length]. lia.
Qed.
Lemma braced_size : forall s i, braced s i -> text s = S (S (text i)).
Proof. intros s i ->. unfold text. rewrite !app_length. cbn. lia. Qed.
Lemma hd_size : forall l, opt text (hd_error l) <= sum text l.
Proof. destruct l; [apply le_n|]. rewrite sum_cons. cbn [hd_error opt]. lia. Qed.
Lemma numeral_size : forall max s n, numeral max s n -> 1 <= text s.
Proof. intros max s n (ds & H & D & _). destruct ds; [congruence|]. destruct H; subst s; cbn; lia. Qed.

(** ** Three disjoint parts of a list of pairs *)
Lemma three_parts : forall (P Q K : str -> Prop), (forall n, P n -> ~ Q n) -> (forall n, P n -> K n) -> (forall n, Q n -> K n) ->
  forall ps vs ws us, given P ps vs -> given Q ps ws -> others K ps us ->
  sum text vs + sum text ws + sum pair_size us <= sum pair_size ps.
Proof.
  intros P Q K PQ PK QK. induction ps as [|[n v] ps IH]; intros vs ws us G H O.
  - inversion G; inversion H; inversion O; subst. apply le_n.
  - inversion G; subst; inversion H; subst; inversion O; subst;
      try (exfalso; solve [eapply PQ; eassumption|apply PK in H3; contradiction|auto]);
      repeat match goal with A : given P ps ?a, B : given Q ps ?b, C : others K ps ?c |- _ => pose proof (IH a b c A B C); clear A end;
      rewrite ?sum_cons, ?sum_nil, ?pair_size_eq; lia.
Qed.

Section WithExt.
Context {E : Ext}.
Variable k : nat.
Hypothesis K1 : 1 <= k.
Hypothesis KN : names_grow_by k.

Lemma up : forall x y, x <= y -> x <= k * y.
Proof. intros x y H. nia. Qed.
Lemma address_bound : forall s a, reads_address s a -> address_size a <= k * text s.
Proof.
  intros s a [(_ & i & _ & ->)|(_ & h & H & ->)]; [cbn; lia|]. destruct h; cbn; try lia. apply KN. exact H.
Qed.
Lemma typed_bound : forall t s a, reads_typed t s a -> typed_size a <= k * text s.
Proof.
  intros t s a [(d & H & ->)|[(_ & n & _ & ->)|(_ & n & _ & ->)]]; cbn; try lia. apply address_bound in H. exact H.
Qed.
Lemma option_bound : forall A (f : A -> nat) is ps (reads : str -> A -> Prop) o c, (forall s x, reads s x -> f x <= c * text s) ->
  option_field is ps reads o -> exists vs, given is ps vs /\ opt f o <= c * sum text vs.
Proof.
  intros A f is ps reads o c B (vs & G & _ & L). exists vs. split; [exact G|].
  destruct (last_of vs) as [v|] eqn:Q; [|subst o; cbn; lia]. destruct L as (x & -> & R). apply B in R. apply last_in, (sum_in _ text) in Q. cbn [opt]. nia.
Qed.
Lemma pairs_size : forall l ps, in_pairs l = Some ps -> sum pair_size ps <= sum text l.
Proof. intros l ps H. apply in_pairs_size in H. lia. Qed.
Lemma candidate_bound : forall v c, candidate_value v c -> candidate_size c <= k * text v.
Proof.
  intros v c (found & comp & trans & prio & addr & port & typ & ty & exts & ps & W & F & _ & _ & _ & A & _ & _ & _ & P & _ & _ & R & _ & _ & U & O).
  apply words_size in W. rewrite !sum_cons in W. apply pairs_size in P.
  apply (option_bound _ address_size _ _ _ _ k) in R; [|exact address_bound]. destruct R as (vs & G & R).
  apply (option_bound _ text _ _ _ _ 1) in U; [|intros s x ->; lia]. destruct U as (ws & H & U).
  apply address_bound in A.
  assert (T := three_parts (fun n => means n "raddr") (fun n => means n "ufrag") (fun n => Exists (means n) extension_names)).
  specialize (T ltac:(intros n X Y; assert (Z := means_fun n "raddr"%string "ufrag"%string eq_refl eq_refl X Y); discriminate Z)
    ltac:(intros n X; do 2 right; left; exact X) ltac:(intros n X; do 5 right; left; exact X) ps vs ws _ G H O).
  unfold candidate_size. rewrite F. nia.
Qed.
Lemma remote_bound : forall v c, remote_candidate_value v c -> address_size (rc_address c) <= k * text v.
Proof.
  intros v c (comp & addr & port & more & W & _ & A & _). apply words_size in W. rewrite !sum_cons in W. apply address_bound in A. nia.
Qed.
Lemma rtcp_bound : forall v r, rtcp_value v r -> opt typed_size (rtcp_unicast_addr r) <= k * text v.
Proof.
  intros v r (port & more & W & _ & H). apply words_size in W. rewrite !sum_cons in W.
  destruct more as [|net [|ty [|addr more]]]; try contradiction; [rewrite H; cbn; lia|].
  destruct H as (_ & t & a & _ & R & ->). apply typed_bound in R. rewrite !sum_cons in W. cbn [opt]. nia.
Qed.
Lemma origin_bound : forall v o, origin_value v o -> text (o_username o) + typed_size (o_unicast_addr o) <= k * text v.
Proof.
  intros v o (user & id & ver & net & ty & addr & more & t & W & <- & _ & _ & _ & _ & R).
  apply words_size in W. rewrite !sum_cons in W. apply typed_bound in R. nia.
Qed.
Lemma connection_bound : forall v c, connection_value v c -> typed_size (conn_address c) <= k * text v.
Proof.
  intros v c (net & ty & rest & t & W & _ & _ & addr & opts & F & R & _).
  apply words_size in W. rewrite !sum_cons in W. apply fields_size in F. rewrite sum_cons in F. apply typed_bound in R. nia.
Qed.

(** ** The other attributes *)
Lemma filter_size : forall (p : str -> bool) l, sum text (filter p l) <= sum text l.
Proof. intros. apply sum_filter. Qed.
Lemma cuts_size : forall ts ps, Forall2 (fun t nv => cut 61 t (fst nv) (snd nv)) ts ps ->
  sum pair_size ps + List.length ps = sum text ts.
Proof.
  intros ts ps F. induction F as [|t nv ts ps H F IH]; [reflexivity|]. rewrite !sum_cons. apply cut_size in H. unfold pair_size at 1. cbn [List.length]. lia.
Qed.
Lemma glue_size : forall us : list (str * str), sum text (map (fun nv => fst nv ++ 61%N :: snd nv) us) = sum pair_size us + List.length us.
Proof.
  induction us as [|u us IH]; [reflexivity|]. cbn [map]. rewrite !sum_cons, IH. unfold pair_size at 2, text. rewrite app_length. cbn [List.length]. lia.
Qed.
Lemma others_len : forall known ps us, others known ps us -> List.length us <= List.length ps.
Proof. intros known ps us H. induction H; cbn; lia. Qed.
Lemma fmtp_bound : forall v f, fmtp_value v f -> fmtp_size (fmtp_parameters f) <= S (S (text v)).
Proof.
  intros v f (t & pt & block & C & T & N & B). apply core_size in C. apply cut_size in T. apply numeral_size in N. unfold fmtp_size.
  destruct B as [(_ & ts & F & ps & P & H)|[(_ & _ & ts & F & G & Q)|(_ & _ & Q & D)]].
  - cbv zeta in H. do 22 (destruct H as [_ H]). destruct H as (EE & D & us & O & U). rewrite EE, D, U, glue_size. cbn [List.length text].
    apply fields_size in F. assert (A := cuts_size _ _ P). assert (L := filter_size (fun x => match x with [] => false | _ => true end) ts).
    assert (X := others_size _ _ _ O). assert (Y := others_len _ _ _ O). unfold text in *. lia.
  - apply fields_size in F. assert (L := sum_length _ text ts). apply forall2_len in G. rewrite Q. cbn [set_encodings fmtp_defaults dtmf_tones unknown_tokens encodings]. 
    unfold text in *. cbn in *. lia.
  - rewrite Q. cbn [set_dtmf_tones fmtp_defaults dtmf_tones unknown_tokens encodings]. destruct D as [[_ ->]|[_ ->]]; cbn; unfold text in *; cbn in *; lia.
Qed.
Lemma two_parts : forall (P K : str -> Prop), (forall n, P n -> K n) ->
  forall ps vs us, given P ps vs -> others K ps us ->
  sum text vs + (sum pair_size us + List.length us) <= sum pair_size ps + List.length ps.
Proof.
  intros P K PK. induction ps as [|[n v] ps IH]; intros vs us G O.
  - inversion G; inversion O; subst. apply le_n.
  - inversion G; subst; inversion O; subst;
      try (exfalso; match goal with A : ~ K n, B : P n |- _ => exact (A (PK n B)) end);
      repeat match goal with A : given P ps ?a, C : others K ps ?c |- _ => pose proof (IH a c A C); clear A end;
      rewrite ?sum_cons, ?pair_size_eq; cbn [List.length]; lia.
Qed.
Lemma lists_size : forall vs ds, Forall2 (fields 44) vs ds -> sum text (List.concat ds) = sum text vs.
Proof. intros vs ds F. induction F as [|v d vs ds H F IH]; [reflexivity|]. cbn [List.concat]. rewrite sum_app, sum_cons, IH, (fields_size _ _ _ H). reflexivity. Qed.
Lemma rid_params_bound : forall ts p d, rid_params_value ts p d -> sum text d + sum text (rid_unknown p) <= sum text ts.
Proof.
  intros ts p d (ps & C & H). cbv zeta in H. do 6 (destruct H as [_ H]). destruct H as [(vs & ds & G & F & ->) (us & O & ->)].
  rewrite (lists_size _ _ F), glue_size, <- (cuts_size _ _ C).
  apply (two_parts (fun n => is_word n "depends") (fun n => Exists (is_word n) rid_names)); [|exact G|exact O].
  intros n X. do 6 right. left. exact X.
Qed.
Lemma rid_bound : forall v r, rid_value v r -> attr_size (ARid r) <= S (text v).
Proof.
  intros v r (t & dir & more & C & P & _ & H). apply core_size in C. apply parts_size in P. rewrite !sum_cons in P. cbn [attr_size].
  destruct more as [|params more].
  - destruct H as [-> H]. apply rid_params_bound in H. cbn [List.length]. rewrite sum_nil in H. lia.
  - rewrite sum_cons in P. destruct H as (ps & F & [(pts & fs & rest & -> & G & L & H)|(_ & -> & H)]); apply fields_size in F; apply rid_params_bound in H.
    + rewrite sum_cons in F. apply fields_size in G. assert (X := sum_length _ text fs). apply forall2_len in L. rewrite <- L.
      rewrite text_app in F. lia.
    + cbn [List.length]. lia.
Qed.
Lemma xy_bound : forall s r, xy_value s r -> xy_size r <= text s.
Proof.
  intros s r [(n & H & ->)|(inner & B & H)]; [apply numeral_size in H; exact H|]. apply braced_size in B.
  destruct H as [(a & b & c & x & y & z & _ & _ & _ & _ & ->)|[(a & b & x & y & _ & _ & _ & ->)|(ts & l & F & G & _ & ->)]]; cbn [xy_size]; try lia.
  apply fields_size in F. apply forall2_len in G. assert (X := sum_length _ text ts). lia.
Qed.
Lemma f32_size : forall l (xs : list f32), Forall2 (fun t x => parse_f32 t = Ok x) l xs -> List.length xs <= sum text l.
Proof. intros l xs F. apply forall2_len in F. rewrite <- F. apply sum_length. Qed.
Lemma sar_bound : forall s r, sar_value s r -> opt sar_size r <= S (text s).
Proof.
  intros s r [(_ & x & _ & ->)|(inner & B & H)]; [cbn; lia|]. apply braced_size in B.
  destruct H as [(_ & x & y & _ & ->)|[(_ & _ & ts & l & F & G & _ & ->)|(_ & _ & ->)]]; cbn [opt sar_size]; try lia.
  apply fields_size in F. apply f32_size in G. lia.
Qed.
Lemma prefixed_size : forall p l vs, prefixed p l vs -> sum text vs + List.length vs * text p <= sum text l.
Proof.
  intros p l vs H. induction H; rewrite ?sum_cons, ?sum_nil; cbn [List.length]; rewrite ?text_app; lia.
Qed.
Lemma sars_bound : forall vs rs, Forall2 sar_value vs rs -> opt sar_size (last_of (somes rs)) <= sum text vs.
Proof.
  intros vs rs F. destruct (last_of (somes rs)) as [x|] eqn:Q; [|cbn; lia]. apply last_in in Q. unfold somes in Q. apply in_flat_map in Q.
  destruct Q as (o & I & J). destruct o as [y|]; [|destruct J]. destruct J as [->|[]]. induction F as [|v r vs rs H F IH]; [destruct I|].
  rewrite sum_cons. destruct I as [->|I]; [apply sar_bound in H; cbn [opt] in *; lia|apply IH in I; cbn [opt] in *; lia].
Qed.
Lemma image_set_bound : forall s x, image_set_value s x -> image_set_size x <= text s.
Proof.
  intros s x (inner & xt & yt & opts & B & T & X & Y & (vs & rs & P & S & Q) & _). apply braced_size in B. apply tokens_size in T.
  rewrite !sum_cons in T. apply xy_bound in X, Y. apply sars_bound in S. apply prefixed_size in P. unfold image_set_size. rewrite Q.
  rewrite !text_app in T. lia.
Qed.
Lemma image_list_bound : forall ts l, image_list_value ts l -> image_list_size l <= sum text ts.
Proof.
  intros ts l [[_ ->]|(_ & sets & F & ->)]; [cbn; lia|]. cbn [image_list_size]. eapply sum_forall2; [exact image_set_bound|exact F].
Qed.
Lemma image_bound : forall v a, image_attr_value v a -> attr_size (AImageAttr a) <= S (text v).
Proof.
  intros v a (t & pt & d & first & more & dir & l1 & l2 & C & T & _ & _ & H1 & H2 & D). apply core_size in C. apply tokens_size in T.
  rewrite !sum_cons, sum_app in T. apply image_list_bound in H1. cbn [attr_size].
  assert (L2 : image_list_size l2 <= sum text more).
  { destruct more as [|d2 second]; [rewrite H2; cbn; lia|]. destruct H2 as [_ H2]. apply image_list_bound in H2. rewrite sum_cons. lia. }
  destruct dir; destruct D as [-> ->]; lia.
Qed.
Lemma version_bound : forall t x, simulcast_version_value t x -> sum (fun i => text (sid_id i)) x <= S (text t).
Proof.
  intros t x (alts & F & G). apply fields_size in F. rewrite <- F. eapply sum_forall2; [|exact G].
  intros s i H. unfold simulcast_id_value in H. destruct (sid_paused i); [subst s; rewrite text_cons; lia|destruct H as [<- _]; lia].
Qed.
Lemma simulcast_list_bound : forall t l, simulcast_list_value t l -> simulcast_size l <= 2 * S (text t).
Proof.
  intros t l (body & vs & B & F & G). apply fields_size in F.
  assert (L : text body <= text t) by (destruct B as [B|[_ ->]]; [apply cut_size in B; lia|lia]).
  enough (simulcast_size l <= sum text vs + List.length vs) by (assert (X := sum_length _ text vs); lia). clear F B L. unfold simulcast_size.
  induction G as [|v x vs l H G IH]; [cbn; lia|]. rewrite !sum_cons. apply version_bound in H. cbn [List.length].
  refine (Nat.le_trans _ (S (S (text v)) + (sum text vs + List.length vs)) _ (Nat.add_le_mono _ _ _ _ (le_n_S _ _ H) IH) _). lia.
Qed.
Lemma simulcast_bound : forall v s, simulcast_value v s -> attr_size (ASimulcast s) <= 2 * S (text v).
Proof.
  intros v s (d & first & more & W & dir & l1 & l2 & _ & H1 & H2 & D). apply words_size in W. rewrite !sum_cons in W. apply simulcast_list_bound in H1. cbn [attr_size].
  assert (L2 : simulcast_size l2 <= 2 * sum text more).
  { destruct more as [|d2 [|second more]]; [rewrite H2; cbn; lia|destruct H2|]. destruct H2 as [_ H2]. apply simulcast_list_bound in H2. rewrite !sum_cons. lia. }
  destruct dir; destruct D as [-> ->]; lia.
Qed.
Lemma ssrc_bound : forall t s, ssrc_value_ t s -> ssrc_size s <= text t.
Proof.
  unfold ssrc_size. intros t s [(_ & _ & -> & ->)|(id & rest & C & _ & H)]; [cbn; lia|]. apply cut_size in C.
  destruct H as [(_ & -> & ->)|(a & b & D & -> & ->)]; cbn [opt]; [lia|]. apply cut_size in D. lia.
Qed.
Lemma ssrc_group_bound : forall v sem l, ssrc_group_value v sem l -> sum ssrc_size l <= text v.
Proof.
  intros v sem l (w & ids & W & _ & _ & F). apply words_size in W. rewrite sum_cons in W.
  enough (sum ssrc_size l <= sum text ids) by lia. eapply sum_forall2; [|exact F]. intros t s (_ & A & B). unfold ssrc_size. rewrite A, B. cbn. lia.
Qed.
Lemma fingerprint_bound : forall v f, fingerprint_value v f -> List.length (fp_bytes f) <= text v.
Proof.
  intros v f (hash & t & bytes & W & _ & F & G & _). apply words_size in W. rewrite !sum_cons in W. apply fields_size in F. apply forall2_len in G.
  assert (X := sum_length _ text bytes). lia.
Qed.
Lemma extmap_bound : forall v e, extmap_value v e -> text (ext_url e) + opt text (ext_attributes e) <= text v.
Proof.
  intros v e (id & url & more & W & -> & _ & H). apply words_size in W. rewrite !sum_cons in W.
  destruct more as [|m more]; [rewrite H; cbn; lia|]. destruct H as [-> _]. cbn [opt]. assert (J := join_size 32 (m :: more) ltac:(discriminate)). lia.
Qed.
Lemma rtpmap_bound : forall v r, rtpmap_value v r -> text (rm_codec_name r) <= text v.
Proof.
  intros v r (pt & codec & more & freq & rest & W & _ & F & _). apply words_size in W. rewrite !sum_cons in W. apply fields_size in F. rewrite !sum_cons in F. lia.
Qed.
Lemma rtcp_fb_bound : forall v f, rtcp_fb_value v f -> text (fb_parameter f) + text (fb_extra f) <= text v.
Proof.
  intros v f (t & pt & ty & more & C & P & _ & _ & _ & -> & ->). apply core_size in C. apply parts_size in P. rewrite !sum_cons in P.
  destruct more as [|a [|b more]]; rewrite ?sum_cons in P; cbn [hd tl]; unfold text in *; cbn [List.length] in *; lia.
Qed.
Lemma dtls_bound : forall v m, dtls_value v m -> attr_size (ADtlsMessage m) <= text v.
Proof.
  intros v m (t & role & tx & C & F & H). apply core_size in C. apply fields_size in F. rewrite !sum_cons in F.
  destruct H as [[_ ->]|[_ ->]]; cbn [attr_size]; lia.
Qed.
Lemma msid_bound : forall v m, msid_value v m -> text (msid_id m) + opt text (msid_appdata m) <= text v.
Proof.
  intros v m (more & W & ->). apply words_size in W. rewrite sum_cons in W. assert (X := hd_size more). lia.
Qed.
(** ** Every line *)
Lemma attr_bound : forall v a, attr_value v a -> attr_size a <= S k * S (S (text v)).
Proof.
  intros v a H.
  assert (one : forall x, x <= S (S (text v)) -> x <= S k * S (S (text v))) by (intros; nia).
  assert (two : forall x, x <= k * text v -> x <= S k * S (S (text v))) by (intros; nia).
  destruct a; cbn [attr_value] in H; try (cbn [attr_size]; apply Nat.le_0_l).
  - apply two, candidate_bound, H.
  - apply dtls_bound in H. apply one. lia.
  - apply extmap_bound in H. apply one. cbn [attr_size]. lia.
  - apply fingerprint_bound in H. apply one. cbn [attr_size]. lia.
  - apply fmtp_bound in H. apply one. cbn [attr_size]. lia.
  - destruct H as (sem & W & _). apply words_size in W. rewrite sum_cons in W. apply one. cbn [attr_size]. lia.
  - destruct H as [W _]. apply words_size in W. apply one. cbn [attr_size]. lia.
  - destruct H as [C _]. apply core_size in C. apply one. cbn [attr_size]. lia.
  - destruct H as [C _]. apply core_size in C. apply one. cbn [attr_size]. lia.
  - destruct H as [C _]. apply core_size in C. apply one. cbn [attr_size]. lia.
  - apply image_bound in H. apply one. lia.
  - destruct H as [C _]. apply core_size in C. apply one. cbn [attr_size]. lia.
  - destruct H as [C _]. apply core_size in C. apply one. cbn [attr_size]. lia.
  - apply msid_bound in H. apply one. cbn [attr_size]. lia.
  - apply words_size in H. rewrite sum_cons in H. apply one. cbn [attr_size]. lia.
  - apply rid_bound in H. apply one. lia.
  - apply two, remote_bound, H.
  - apply rtpmap_bound in H. apply one. cbn [attr_size]. lia.
  - apply two, rtcp_bound, H.
  - apply rtcp_fb_bound in H. apply one. cbn [attr_size]. lia.
  - apply simulcast_bound in H. nia.
  - destruct H as (t & C & H). apply core_size in C. apply ssrc_bound in H. apply one. cbn [attr_size]. lia.
  - apply ssrc_group_bound in H. apply one. cbn [attr_size]. lia.
Qed.
Lemma means_size : forall s w, means s w -> w <> ""%string -> 1 <= text s.
Proof. intros s w H N. destruct w; [congruence|]. unfold means in H. inversion H; subst; cbn; lia. Qed.
Lemma name_size : forall a, sdp_name a <> ""%string.
Proof. destruct a; cbn; discriminate. Qed.
Lemma attribute_bound : forall v a, attribute_value v a -> S (attr_size a) <= S k * S (S (text v)).
Proof.
  intros v a (t & C & H). apply core_size in C. destruct H as [(_ & M & H)|(name & rest & C' & M & H)].
  - apply means_size in M; [|apply name_size]. destruct H as [H|H].
    + destruct a; try destruct H; cbn [attr_size]; nia.
    + apply attr_bound in H. cbn [text List.length] in H. nia.
  - apply cut_size in C'. apply means_size in M; [|apply name_size]. apply attr_bound in H. nia.
Qed.
Lemma line_bound : forall line ty, line_means line ty -> S (item_size ty) <= S k * text line.
Proof.
  intros line ty (w1 & c & w2 & v & -> & _ & _ & _ & H).
  enough (S (item_size ty) <= S k * S (S (text v))).
  { unfold text in *. rewrite !app_length. cbn [List.length] in *. nia. }
  destruct ty; cbn [type_value item_size] in *.
  - apply attribute_bound. exact H.
  - destruct H as (t & ty & num & n & C & F & _ & B). apply core_size in C. apply fields_size in F. rewrite !sum_cons in F.
    assert (text ty <= text v) by lia. destruct B as [[_ ->]|[[_ ->]|[[_ ->]|(_ & _ & _ & ->)]]]; nia.
  - apply connection_bound in H. nia.
  - destruct H as (kind & port & proto & fmts & W & _ & _ & _ & _ & H). apply words_size in W. rewrite !sum_cons in W.
    destruct (ml_media _); [destruct H as (l & -> & F)|destruct H as (l & -> & F)|rewrite H];
      try (apply forall2_len in F; assert (X := sum_length _ text fmts)); nia.
  - apply origin_bound in H. nia.
  - subst v. nia.
  - nia.
  - nia.
Qed.

(** ** Every text *)
Definition total (l : list str) : nat := fold_right (fun s n => text s + n) 0 l.
Lemma total_cons : forall x l, total (x :: l) = text x + total l.
Proof. reflexivity. Qed.
Lemma reads_bound : forall n ls ts ws, Reads n ls ts ws ->
  sum item_size ts + sum warning_size ws <= S k * total ls.
Proof.
  intros n ls ts ws H. induction H; rewrite ?sum_cons, ?sum_nil; rewrite ?total_cons; try nia.
  - apply line_fwd in H0. destruct H0 as (_ & _ & M). apply line_bound in M. nia.
  - cbn [warning_size]. assert (1 <= text line) by (destruct line; [destruct H; constructor|cbn; lia]). nia.
Qed.
End WithExt.
Lemma split_total : forall sep s, total (split sep s) + List.length (split sep s) = S (text s).
Proof.
  intros sep s. unfold split. induction s as [|c s IH]; [reflexivity|]. cbn [split_by]. destruct (N.eqb sep c).
  - rewrite total_cons, text_cons. cbn [List.length]. change (text []) with 0. lia.
  - destruct (split_by (N.eqb sep) s) as [|x l] eqn:Q; [cbn in IH; lia|]. rewrite total_cons in *. cbn [List.length] in *. rewrite !text_cons. lia.
Qed.
Lemma strip_size : forall x, text (strip_cr x) <= text x.
Proof.
  intros x. unfold strip_cr. destruct (rev x) as [|c r] eqn:Q; [lia|].
  assert (L : List.length x = S (List.length r)) by (rewrite <- rev_length, Q; reflexivity).
  destruct (N.eqb _ _); unfold text; rewrite ?rev_length; lia.
Qed.
Lemma lines_total : forall s, total (lines s) <= text s.
Proof.
  intros s. unfold lines. assert (H := split_total c_lf s).
  assert (G : forall l, total (lines_of l) <= total l).
  { induction l as [|x l IH]; [apply le_n|]. cbn [lines_of]. destruct l as [|y l].
    - destruct (is_empty x); rewrite ?total_cons; lia.
    - rewrite total_cons. rewrite (total_cons x). assert (X := strip_size x). lia. }
  specialize (G (split c_lf s)). assert (1 <= List.length (split c_lf s)) by (destruct (split c_lf s); cbn in *; lia). lia.
Qed.
Lemma last_size : forall A (f : A -> sdp_type) l, sum item_size (map f (of_option (last_of l))) <= sum item_size (map f l).
Proof.
  intros A f l. destruct (last_of l) as [x|] eqn:Q; [|cbn; lia]. apply last_in in Q. cbn [of_option map]. rewrite sum_one. apply sum_in, in_map, Q.
Qed.
Lemma first_size : forall A (f : A -> sdp_type) l, sum item_size (map f (of_option (hd_error l))) <= sum item_size (map f l).
Proof. intros A f [|x l]; [apply le_n|]. cbn [hd_error of_option map]. rewrite sum_one, sum_cons. lia. Qed.
Lemma kinds_size : forall l, sum item_size (map TyTiming (timings l)) + sum item_size (map TyConnection (connections l)) +
  sum item_size (map TyBandwidth (bandwidths l)) + sum item_size (map TyAttribute (attributes l)) <= sum item_size l.
Proof.
  unfold timings, connections, bandwidths, attributes.
  induction l as [|ty l IH]; [apply le_n|]. cbn [flat_map]. rewrite !map_app, !sum_app, sum_cons.
  destruct ty; cbn [map]; rewrite ?sum_one, ?sum_nil; lia.
Qed.
Lemma filter_items : forall (p : attr -> bool) l, sum item_size (map TyAttribute (filter p l)) <= sum item_size (map TyAttribute l).
Proof. intros p l. induction l as [|x l IH]; [apply le_n|]. cbn [filter]. destruct (p x); cbn [map]; rewrite ?sum_cons; lia. Qed.
Lemma section_size : forall c, sum item_size (media_items (section_media c)) <= sum item_size (section_lines c).
Proof.
  intros [m l]. unfold media_items, section_media, section_lines. cbn [fst snd m_media m_connection m_bandwidth m_attribute].
  rewrite !sum_cons, !sum_app. assert (H := kinds_size l). assert (X := first_size _ TyConnection (connections l)).
  assert (Y := filter_items (SpecApi.not_named "dtls-message") (attributes l)). lia.
Qed.
Lemma sections_size : forall cs, sum item_size (flat_map media_items (map section_media cs)) <= sum item_size (flat_map section_lines cs).
Proof. induction cs as [|c cs IH]; [apply le_n|]. cbn [map flat_map]. rewrite !sum_app. assert (X := section_size c). lia. Qed.
Lemma name_bound : forall t r, session_name t r -> opt text r <= text t.
Proof. intros t [n|] H; [|cbn; lia]. destruct H as (w1 & w2 & -> & _). cbn [opt]. rewrite !text_app. lia. Qed.
Lemma assembled_size : forall l s, Assembles l s -> sum item_size (session_items s) + opt text (s_session s) <= sum item_size l.
Proof.
  intros l s (name & head & secs & -> & N & _ & _ & B & A & T & C & M). unfold session_items. rewrite B, A, T, C, M.
  rewrite !sum_cons, !sum_app. assert (X1 := last_size _ TyTiming (timings head)). assert (X2 := last_size _ TyConnection (connections head)).
  assert (X3 := kinds_size head). assert (X4 := sections_size secs). apply name_bound in N. cbn [item_size]. lia.
Qed.
Lemma session_bound : forall (E : Ext) k, 1 <= k -> names_grow_by k -> forall sdp b s, parse_sdp sdp b = Ok s ->
  session_size s <= S k * text sdp.
Proof.
  intros E k K1 KN sdp b s H. apply document in H. destruct H as (_ & ts & ws & R & W & _ & _ & A & _).
  apply (reads_bound k K1 KN) in R. apply assembled_size in A. assert (L := lines_total sdp). unfold session_size. rewrite W. nia.
Qed.
(** The number of things. *)
Lemma reads_count : forall (E : Ext) n ls ts ws, Reads n ls ts ws -> List.length ts + List.length ws <= List.length ls.
Proof. intros E n ls ts ws H. induction H; cbn [List.length]; lia. Qed.

(** * Attributes and whole lines against the grammars of SpecVal.v (proofs only) *)
From Coq Require Import List NArith ZArith Bool Ascii String Lia.
From Coq Require Import ZifyBool ZifyNat ZifyN.
From Verif Require Import Str Num Net Types Ext Show Address AttrParse Media Session.
From Verif Require Import StrLemmas NumLemmas NetLemmas.
From Verif Require Import SpecApi SpecDoc SpecVal PPanic PVal PVal2 PVal3 PVal4 PVal5 PVal6 PVal7.
Import ListNotations.
Open Scope N_scope.
Open Scope list_scope.

Section WithExt.
Context {E : Ext}.

(** One row of the dispatch table. *)
Definition row_ok (row : str * (str -> res ierr attr)) : Prop :=
  forall rest a, snd row (trim rest) = Ok a ->
    fst row = of_string (sdp_name a) /\ (flag_attribute a \/ attr_value rest a).

Ltac row_iff L :=
  let r := fresh "r" in let a := fresh "a" in let H := fresh "H" in
  intros r a H; cbn [fst snd] in H |- *;
  apply L in H; destruct H as (x & Ha & H); rewrite Ha; split; [reflexivity | right; exact H].
Ltac row_flag :=
  let r := fresh "r" in let a := fresh "a" in let H := fresh "H" in
  intros r a H; cbn [fst snd] in H |- *; injection H as H; rewrite <- H; split; [reflexivity | left; exact I].

Lemma rows_ok : Forall row_ok attr_parsers.
Proof.
  unfold attr_parsers.
  repeat (constructor; [first
    [ row_flag
    | row_iff dtls_iff | row_iff (text_value_iff AIcePwd) | row_iff (text_value_iff AIceUfrag)
    | row_iff (text_value_iff AIdentity) | row_iff (text_value_iff ALabel) | row_iff (text_value_iff AMid)
    | row_iff image_fwd | row_iff (u64_value_iff AMaxMessageSize) | row_iff (u64_value_iff AMaxPtime)
    | row_iff (u64_value_iff APtime) | row_iff msid_semantic_iff | row_iff ice_pacing_iff | row_iff rid_iff
    | row_iff sctp_port_iff | row_iff candidate_iff | row_iff extmap_iff | row_iff fingerprint_iff
    | row_iff fmtp_iff | row_iff framerate_iff | row_iff group_iff | row_iff ice_options_iff
    | row_iff msid_iff | row_iff remote_candidate_iff | row_iff rtpmap_iff | row_iff rtcp_iff
    | row_iff rtcp_fb_iff | row_iff sctpmap_iff | row_iff setup_iff | row_iff simulcast_iff
    | row_iff ssrc_iff
    | let r := fresh "r" in let a := fresh "a" in let H := fresh "H" in
      intros r a H; cbn [fst snd] in H |- *; apply ssrc_group_iff in H;
      destruct H as (x & y & Ha & H); rewrite Ha; split; [reflexivity | right; exact H] ]|]).
  constructor.
Qed.

Lemma names_lower : forall a, lower_word (of_string (sdp_name a)) = true.
Proof. intros []; reflexivity. Qed.
Lemma flag_listed : forall a, flag_attribute a -> mem_str (of_string (sdp_name a)) flag_names = true.
Proof. intros []; cbn [flag_attribute]; intro H; try contradiction; reflexivity. Qed.
Lemma value_unlisted : forall v a, attr_value v a -> mem_str (of_string (sdp_name a)) flag_names = false.
Proof. intros v []; cbn [attr_value]; intro H; try contradiction; reflexivity. Qed.

Definition count_ok (a : attr) (n : nat) : Prop := match a with AImageAttr _ => short n | _ => True end.
Lemma count_le : forall a n m, (m <= n)%nat -> count_ok a n -> count_ok a m.
Proof. intros [] n m; cbn [count_ok]; unfold short; try easy. lia. Qed.
Lemma row_bwd : forall rest a, count_ok a (List.length rest) -> flag_attribute a \/ attr_value rest a ->
  exists p, assoc_str (of_string (sdp_name a)) attr_parsers = Some p /\ p (trim rest) = Ok a.
Proof.
  intros rest a L H.
  destruct a; cbn [flag_attribute attr_value] in H;
    (eexists; split; [reflexivity|]); destruct H as [H|H]; try contradiction; try reflexivity.
  all: cbn beta.
  all: first
    [ apply dtls_iff; eexists; split; [reflexivity | exact H]
    | apply (text_value_iff AIcePwd); eexists; split; [reflexivity | exact H]
    | apply (text_value_iff AIceUfrag); eexists; split; [reflexivity | exact H]
    | apply (text_value_iff AIdentity); eexists; split; [reflexivity | exact H]
    | apply (text_value_iff ALabel); eexists; split; [reflexivity | exact H]
    | apply (text_value_iff AMid); eexists; split; [reflexivity | exact H]
    | apply (u64_value_iff AMaxMessageSize); eexists; split; [reflexivity | exact H]
    | apply (u64_value_iff AMaxPtime); eexists; split; [reflexivity | exact H]
    | apply (u64_value_iff APtime); eexists; split; [reflexivity | exact H]
    | apply msid_semantic_iff; eexists; split; [reflexivity | exact H]
    | apply ice_pacing_iff; eexists; split; [reflexivity | exact H]
    | apply rid_iff; eexists; split; [reflexivity | exact H]
    | apply sctp_port_iff; eexists; split; [reflexivity | exact H]
    | apply candidate_iff; eexists; split; [reflexivity | exact H]
    | apply extmap_iff; eexists; split; [reflexivity | exact H]
    | apply fingerprint_iff; eexists; split; [reflexivity | exact H]
    | apply fmtp_iff; eexists; split; [reflexivity | exact H]
    | apply framerate_iff; eexists; split; [reflexivity | exact H]
    | apply group_iff; eexists; split; [reflexivity | exact H]
    | apply ice_options_iff; eexists; split; [reflexivity | exact H]
    | apply msid_iff; eexists; split; [reflexivity | exact H]
    | apply remote_candidate_iff; eexists; split; [reflexivity | exact H]
    | apply rtpmap_iff; eexists; split; [reflexivity | exact H]
    | apply rtcp_iff; eexists; split; [reflexivity | exact H]
    | apply rtcp_fb_iff; eexists; split; [reflexivity | exact H]
    | apply sctpmap_iff; eexists; split; [reflexivity | exact H]
    | apply setup_iff; eexists; split; [reflexivity | exact H]
    | apply simulcast_iff; eexists; split; [reflexivity | exact H]
    | apply ssrc_iff; eexists; split; [reflexivity | exact H]
    | apply ssrc_group_iff; eexists; eexists; split; [reflexivity | exact H]
    | apply image_bwd; [exact L | exact H] ].
Qed.

Lemma attribute_fwd : forall v a, attr_from_str (trim v) = Ok a -> attribute_value v a.
Proof.
  intros v a H. unfold attr_from_str in H. unfold attribute_value.
  exists (trim v). split; [apply core_trim_self|].
  destruct (splitn2_cases c_colon (trim v)) as [[N W] | (x & y & Ev & N & W)]; rewrite W in H;
    cbn [idx nth_error bind List.length Nat.ltb Nat.leb] in H.
  - cbn [andb] in H. left. apply contains_not_In in N. split; [exact N|].
    destruct (assoc_str (to_lower (trim v)) attr_parsers) as [p|] eqn:A; [|discriminate].
    apply assoc_str_In in A. pose proof rows_ok as R. rewrite Forall_forall in R.
    specialize (R _ A [] a). cbn [fst snd] in R. destruct (R H) as [K F].
    split; [|exact F]. apply means_iff; [apply names_lower | exact K].
  - cbn [andb] in H. right. exists x, y. split; [split; [exact Ev | apply contains_not_In, N]|].
    destruct (mem_str (to_lower x) flag_names) eqn:M; [discriminate|].
    destruct (assoc_str (to_lower x) attr_parsers) as [p|] eqn:A; [|discriminate].
    apply assoc_str_In in A. pose proof rows_ok as R. rewrite Forall_forall in R.
    specialize (R _ A y a). cbn [fst snd] in R. destruct (R H) as [K F].
    split; [apply means_iff; [apply names_lower | exact K]|].
    destruct F as [F|F]; [|exact F]. apply flag_listed in F. rewrite K in M. congruence.
Qed.
Lemma attribute_bwd : forall v a, count_ok a (List.length v) -> attribute_value v a -> attr_from_str (trim v) = Ok a.
Proof.
  intros v a L (t & C & H). apply core_trim in C. subst t. unfold attr_from_str.
  assert (Lt : (List.length (trim v) <= List.length v)%nat).
  { destruct (trim_decompose v) as (w1 & w2 & Eq & _ & _). rewrite Eq at 2. rewrite !app_length. lia. }
  apply (count_le _ _ _ Lt) in L. clear Lt.
  destruct H as [(N & M & F) | (x & y & Ct & M & F)]; apply means_iff in M; try apply names_lower.
  - destruct (splitn2_cases c_colon (trim v)) as [[_ W] | (x & y & Ev & _ & _)].
    2: { exfalso. apply N. rewrite Ev. apply in_or_app. right. now left. }
    rewrite W. cbn [idx nth_error bind List.length]. cbn [Nat.ltb Nat.leb andb]. rewrite M.
    destruct (row_bwd [] a) as (p & A & P); [apply (count_le _ _ 0%nat) in L; [exact L | lia] | exact F|].
    rewrite A. exact P.
  - assert (Ly : count_ok a (List.length y)).
    { destruct Ct as [Ev _]. rewrite Ev in L. eapply count_le; [|exact L]. rewrite app_length. cbn [List.length]. lia. }
    apply cut_splitn2 in Ct. change 58 with c_colon in Ct. rewrite Ct.
    cbn [idx nth_error bind List.length Nat.ltb Nat.leb]. cbn [andb]. rewrite M.
    rewrite (value_unlisted _ _ F).
    destruct (row_bwd y a Ly (or_intror F)) as (p & A & P). rewrite A. exact P.
Qed.

(** ** Lines *)
Lemma byte_one : forall s, s <> [] -> byte_len s <= 1 -> exists c, s = [c] /\ c < 128.
Proof.
  intros s N L. destruct s as [|c s]; [congruence|]. exists c.
  assert (U : forall x, 1 <= utf8_len x) by (intro x; unfold utf8_len; repeat (destruct (_ <? _); try lia)).
  assert (Uc : utf8_len c <= 1 -> c < 128).
  { unfold utf8_len. destruct (N.ltb_spec c 128); [auto|]. repeat (destruct (_ <? _); try lia). }
  unfold byte_len in L. cbn [fold_right] in L. fold (byte_len s) in L. pose proof (U c).
  split; [|apply Uc; lia].
  destruct s as [|d s]; [reflexivity|]. unfold byte_len in L. cbn [fold_right] in L. pose proof (U d).
  fold (byte_len s) in L. lia.
Qed.
Lemma lower_one : forall c, c < 128 -> to_lower [c] = [ascii_lower c].
Proof.
  intros c H. unfold to_lower, ascii_lower. cbn [flat_map]. unfold lower_char. rewrite app_nil_r.
  destruct ((65 <=? c) && (c <=? 90)); [reflexivity|].
  destruct (N.eqb_spec c 8490); [lia|]. reflexivity.
Qed.

Definition raw_type (ty : sdp_type) : Prop := exists s, ty = TySession s.

Lemma value_fwd : forall c v ty, parse_value [c] (trim v) v = Ok ty -> c = line_letter ty /\ type_value v ty.
Proof.
  intros c v ty H. unfold parse_value in H.
  Ltac letter H c k := destruct (str_eqb_spec [c] (lit k)) as [Hc|Hc];
    [injection Hc as Hc; rewrite Hc; clear Hc | clear Hc].
  letter H c "a"%string.
  { unfold parse_attribute in H. rewrite trim_idem in H. okb H a Ha. inv H.
    split; [reflexivity | apply attribute_fwd, Ha]. }
  letter H c "b"%string. { apply bandwidth_iff in H. destruct H as (x & -> & H). split; [reflexivity | exact H]. }
  letter H c "c"%string. { apply connection_iff in H. destruct H as (x & -> & H). split; [reflexivity | exact H]. }
  letter H c "e"%string; [discriminate|]. letter H c "i"%string; [discriminate|].
  letter H c "k"%string; [discriminate|].
  letter H c "m"%string. { apply media_iff in H. destruct H as (x & -> & H). split; [reflexivity | exact H]. }
  letter H c "o"%string. { apply origin_iff in H. destruct H as (x & -> & H). split; [reflexivity | exact H]. }
  letter H c "p"%string; [discriminate|]. letter H c "r"%string; [discriminate|].
  letter H c "s"%string. { inv H. split; reflexivity. }
  letter H c "t"%string. { apply timing_iff in H. destruct H as (x & -> & H). split; [reflexivity | exact H]. }
  letter H c "u"%string; [discriminate|].
  letter H c "v"%string. { apply version_iff in H. destruct H as (x & -> & H). split; [reflexivity | exact H]. }
  letter H c "z"%string; discriminate.
Qed.
Lemma value_bwd : forall v ty, countable ty (List.length v) -> type_value v ty ->
  parse_value [line_letter ty] (trim v) v = Ok ty /\ (trim v <> [] \/ line_letter ty = 115).
Proof.
  intros v ty L H. unfold parse_value.
  destruct ty as [a|b|c|m|o|s|t|ver]; cbn [line_letter type_value] in *.
  - change (str_eqb [97] (lit "a")) with true. cbv iota. unfold parse_attribute. rewrite trim_idem.
    assert (L' : count_ok a (List.length v)) by (destruct a; first [exact I | exact L]).
    clear L. rename L' into L. rewrite (attribute_bwd _ _ L H). split; [reflexivity|]. left. intro Tv.
    apply attribute_bwd in H; [|exact L]. rewrite Tv in H. discriminate.
  - change (parse_bandwidth (trim v) = Ok (TyBandwidth b) /\ (trim v <> [] \/ 98 = 115)).
    assert (P : parse_bandwidth (trim v) = Ok (TyBandwidth b)) by (apply bandwidth_iff; eauto).
    split; [exact P|]. left. intro Tv. rewrite Tv in P. discriminate.
  - change (parse_connection (trim v) = Ok (TyConnection c) /\ (trim v <> [] \/ 99 = 115)).
    assert (P : parse_connection (trim v) = Ok (TyConnection c)) by (apply connection_iff; eauto).
    split; [exact P|]. left. intro Tv. rewrite Tv in P. discriminate.
  - change (parse_media (trim v) = Ok (TyMedia m) /\ (trim v <> [] \/ 109 = 115)).
    assert (P : parse_media (trim v) = Ok (TyMedia m)) by (apply media_iff; eauto).
    split; [exact P|]. left. intro Tv. rewrite Tv in P. discriminate.
  - change (parse_origin (trim v) = Ok (TyOrigin o) /\ (trim v <> [] \/ 111 = 115)).
    assert (P : parse_origin (trim v) = Ok (TyOrigin o)) by (apply origin_iff; eauto).
    split; [exact P|]. left. intro Tv. rewrite Tv in P. discriminate.
  - subst. split; [reflexivity | right; reflexivity].
  - change (parse_timing (trim v) = Ok (TyTiming t) /\ (trim v <> [] \/ 116 = 115)).
    assert (P : parse_timing (trim v) = Ok (TyTiming t)) by (apply timing_iff; eauto).
    split; [exact P|]. left. intro Tv. rewrite Tv in P. discriminate.
  - change (parse_version (trim v) = Ok (TyVersion ver) /\ (trim v <> [] \/ 118 = 115)).
    assert (P : parse_version (trim v) = Ok (TyVersion ver)) by (apply version_iff; eauto).
    split; [exact P|]. left. intro Tv. rewrite Tv in P. discriminate.
Qed.

Lemma letter_lower : forall ty, ascii_lower (line_letter ty) = line_letter ty /\
  97 <= line_letter ty <= 122.
Proof. intros []; split; try reflexivity; cbn; lia. Qed.
Lemma letter_fwd : forall c ty, ascii_lower c = line_letter ty -> same_letter c (line_letter ty).
Proof. intros c ty H. unfold same_letter. rewrite H. symmetry. apply letter_lower. Qed.

Lemma line_fwd : forall line n l, parse_sdp_line line n = Ok l ->
  l_number l = n /\ l_text l = line /\ line_means line (l_type l).
Proof.
  intros line n l H. unfold parse_sdp_line in H.
  destruct (contains c_eq line) eqn:Ce; cbn [negb] in H; [|discriminate].
  destruct (splitn2_cases c_eq line) as [[N W] | (t & v & El & N & W)]; [congruence|].
  rewrite W in H. cbv zeta in H.
  destruct (N.ltb_spec 1 (byte_len (trim t))); [discriminate|].
  destruct (is_empty (trim t)) eqn:Em; [discriminate|]. apply is_empty_false in Em.
  destruct (is_empty (trim v) && negb (str_eqb (to_lower (trim t)) (lit "s"))); [discriminate|].
  destruct (byte_one _ Em H0) as (c & Et & Lc). rewrite Et, lower_one in H by exact Lc.
  destruct (parse_value [ascii_lower c] (trim v) v) as [ty| |] eqn:P; try discriminate. inv H.
  cbn [l_number l_text l_type]. split; [reflexivity|]. split; [reflexivity|].
  apply value_fwd in P. destruct P as [Q T].
  destruct (trim_decompose t) as (w1 & w2 & Eq & B1 & B2). rewrite Et in Eq.
  exists w1, c, w2, v. rewrite Eq. split; [rewrite <- !app_assoc; reflexivity|].
  split; [apply blank_forallb; exact B1|]. split; [apply blank_forallb; exact B2|].
  split; [apply letter_fwd; exact Q | exact T].
Qed.
Lemma line_bwd : forall line n ty, countable ty (List.length line) -> line_means line ty ->
  parse_sdp_line line n = Ok {| l_number := n; l_type := ty; l_text := line |}.
Proof.
  intros line n ty L (w1 & c & w2 & v & El & B1 & B2 & Sl & T).
  apply blank_forallb in B1, B2.
  destruct (letter_lower ty) as [Lt Rt]. unfold same_letter in Sl. rewrite Lt in Sl.
  assert (Lc : c < 128 /\ c <> 61 /\ is_ws c = false).
  { unfold ascii_lower in Sl. destruct ((65 <=? c) && (c <=? 90)) eqn:K.
    - split; [lia|]. split; [lia|]. unfold is_ws. lia.
    - rewrite Sl. split; [lia|]. split; [lia|]. unfold is_ws. lia. }
  destruct Lc as (Lc & Nc & Wc).
  assert (Ct : cut 61 line (w1 ++ [c] ++ w2) v).
  { split; [rewrite El, <- !app_assoc; reflexivity|]. intro I.
    rewrite forallb_forall in B1, B2.
    apply in_app_or in I. destruct I as [I|I]; [apply B1 in I; discriminate|].
    apply in_app_or in I. destruct I as [[I|[]]|I]; [congruence|]. apply B2 in I. discriminate. }
  assert (Tt : trim (w1 ++ [c] ++ w2) = [c]).
  { symmetry. apply core_trim. exists w1, w2. split; [reflexivity|].
    split; [apply blank_forallb; exact B1|]. split; [apply blank_forallb; exact B2|].
    right. split; [exists c, []; auto | exists c, []; auto]. }
  assert (Lv : countable ty (List.length v)).
  { rewrite El in L. destruct ty as [[]| | | | | | |]; cbn [countable] in *; try exact I.
    rewrite !app_length in L. cbn [List.length] in L. lia. }
  unfold parse_sdp_line.
  pose proof (cut_In _ _ _ _ Ct) as Ie. apply contains_In in Ie. change (contains c_eq line = true) in Ie.
  rewrite Ie. cbn [negb]. apply cut_splitn2 in Ct. change 61 with c_eq in Ct. rewrite Ct. cbv zeta.
  rewrite Tt. assert (Bl : byte_len [c] = 1).
  { unfold byte_len. cbn [fold_right]. unfold utf8_len. destruct (N.ltb_spec c 128); [reflexivity | lia]. }
  rewrite Bl. cbn [N.ltb N.compare Pos.compare Pos.compare_cont is_empty].
  rewrite lower_one by exact Lc. rewrite Sl.
  destruct (value_bwd v ty Lv T) as [P D].
  assert (Z : is_empty (trim v) && negb (str_eqb [line_letter ty] (lit "s")) = false).
  { destruct D as [D|D].
    - apply is_empty_false in D. rewrite D. reflexivity.
    - rewrite D. apply andb_false_r. }
  rewrite Z, P. reflexivity.
Qed.

End WithExt.

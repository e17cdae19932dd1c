(** * Lemmas for C53: printed attributes are derived by the grammar *)
From Coq Require Import List NArith ZArith Lia Bool Ascii String.
From Coq Require Import ZifyBool ZifyNat ZifyN.
From Verif Require Import Str Num Net Types Ext Show Address AttrParse Media Session.
From Verif Require Import SpecApi SpecDoc SpecVal SpecItems SpecPrint SpecGrammar.
From Verif Require Import StrLemmas NumLemmas NetLemmas PVal PVal2 PVal8 PVal9 PGram.
Import ListNotations.
Open Scope N_scope.
Open Scope list_scope.

Ltac glit := apply g_lit; reflexivity.
Ltac gword := apply g_word; reflexivity.
Ltac pick := cbn [map app]; repeat first [left; reflexivity | right].

Lemma g_non_blank : forall t, word t -> gen non_blank t.
Proof. intros t [N F]. apply g_chars1; assumption. Qed.
Lemma g_non_blanks : forall l, l <> [] -> Forall word l -> gen (list_of " " non_blank) (join [32] l).
Proof.
  intros l N F. apply (g_join " "); [exact N|]. eapply Forall_impl; [|exact F]. exact g_non_blank.
Qed.
Lemma g_show_opt : forall {A} s a (show : A -> str) pre o, of_string s = pre ->
  (forall x, o = Some x -> gen a (show x)) -> gen (opt (Cat (Lit s) a)) (show_opt pre show [] o).
Proof.
  intros A s a show pre [x|] H G; cbn [show_opt]; [|apply g_opt_none; reflexivity].
  apply g_opt_some. apply gen_cat; [apply g_lit, H|]. rewrite app_nil_r. apply G. reflexivity.
Qed.
Lemma g_text : forall t, starts_solid t -> ends_solid t -> gen r_text t.
Proof.
  intros t (c & x & -> & Hc) (d & y & E & Hd). unfold r_text. destruct x as [|e x].
  - apply gen_or_left. constructor. exact Hc.
  - apply gen_or_right. cbn [cats].
    destruct (@exists_last _ (e :: x) ltac:(discriminate)) as (z & f & Z). rewrite Z in *.
    change (c :: z ++ [f]) with ((c :: z) ++ [f]) in E. apply app_inj_tail in E. destruct E as [_ ->].
    change (c :: z ++ [d]) with ([c] ++ z ++ [d]).
    apply gen_cat; [constructor; exact Hc|]. apply gen_cat; [|constructor; exact Hd].
    apply g_chars. apply Forall_forall. intros. exact I.
Qed.
Lemma g_payload : forall p, payload_range p -> gen r_payload (show_payload_type p).
Proof.
  intros [n|] H; cbn [show_payload_type]; [apply gen_or_right, g_upto; exact H | apply gen_or_left; glit].
Qed.
Lemma g_none_of : forall s t, (forall c, In c (of_string s) -> ~ In c t) -> gen (Many (none_of s)) t.
Proof.
  intros s t H. apply g_chars. apply Forall_forall. intros c I J. exact (H c J I).
Qed.
Lemma g_none_of1 : forall s t, t <> [] -> (forall c, In c (of_string s) -> ~ In c t) ->
  gen (many1 (none_of s)) t.
Proof.
  intros s t N H. apply g_chars1; [exact N|]. apply Forall_forall. intros c I J. exact (H c J I).
Qed.
Ltac gcats := cbn [cats]; repeat (apply gen_cat; [solve [glit | gword | apply g_upto; assumption] |]).

Lemma in_one : forall (c d : N) t, In c [d] -> ~ In d t -> ~ In c t.
Proof. intros c d t [->|[]] H. exact H. Qed.
Lemma in_two : forall (c d e : N) t, In c [d; e] -> ~ In d t -> ~ In e t -> ~ In c t.
Proof. intros c d e t [->|[->|[]]] H K; assumption. Qed.

Lemma g_named_number : forall max name pre v, of_string name ++ [61] = pre -> v <= max ->
  gen (r_named_number max name) (pre ++ show_N v).
Proof.
  intros max name pre v <- H. unfold r_named_number. cbn [cats]. rewrite <- app_assoc.
  apply gen_cat; [constructor|]. apply gen_cat; [glit | apply g_upto, H].
Qed.

Section WithExt.
Context {E : Ext} (X : ext_ok E).

Lemma g_candidate : forall c, candidate_range c -> attr_wf (ACandidate c) -> gen r_candidate (show_candidate c).
Proof.
  intros c (R1 & R2 & R3 & R4 & R5 & R6 & _ & _) (W1 & W2 & W3 & W4 & W5).
  unfold r_candidate, show_candidate. cbn [cats].
  apply gen_cat; [apply g_non_blank, W1|]. apply gen_cat; [glit|].
  apply gen_cat; [apply g_upto, R1|]. apply gen_cat; [glit|].
  apply gen_cat; [destruct (transport c); gword|]. apply gen_cat; [glit|].
  apply gen_cat; [apply g_upto, R2|]. apply gen_cat; [glit|].
  apply gen_cat; [apply (g_address X), W2|]. apply gen_cat; [glit|].
  apply gen_cat; [apply g_upto, R3|]. apply gen_cat; [glit|].
  apply gen_cat; [destruct (c_type c); gword|].
  apply gen_cat; [apply g_show_opt; [reflexivity|]; intros x Hx; rewrite Hx in W3; apply (g_address X), W3|].
  apply gen_cat; [apply g_show_opt; [reflexivity|]; intros x Hx; rewrite Hx in R4; apply g_upto, R4|].
  apply gen_cat; [apply g_show_opt; [reflexivity|]; intros [] _; gword|].
  apply gen_cat; [apply g_show_opt; [reflexivity|]; intros x Hx; rewrite Hx in R5; apply g_upto, R5|].
  apply gen_cat; [apply g_show_opt; [reflexivity|]; intros x Hx; rewrite Hx in W4; apply g_non_blank, W4|].
  apply gen_cat; [apply g_show_opt; [reflexivity|]; intros x Hx; rewrite Hx in R6; apply g_upto, R6|].
  apply g_many_map. eapply Forall_impl; [|exact W5]. intros [n v] (A & B & C). cbn [fst snd] in *.
  apply gen_cat; [glit|]. apply gen_cat; [apply g_such; [apply g_non_blank, A | exact C]|].
  apply gen_cat; [glit|]. apply g_non_blank, B.
Qed.
Lemma g_remote_candidate : forall c, attr_range (ARemoteCandidate c) -> attr_wf (ARemoteCandidate c) ->
  gen r_remote_candidate (show_remote_candidate c).
Proof.
  intros c (R1 & R2 & _) W. unfold r_remote_candidate, show_remote_candidate. cbn [cats].
  apply gen_cat; [apply g_upto, R1|]. apply gen_cat; [glit|].
  apply gen_cat; [apply (g_address X), W|]. apply gen_cat; [glit|]. apply g_upto, R2.
Qed.
Lemma g_dtls : forall m, attr_wf (ADtlsMessage m) -> gen r_dtls_message (show_dtls_message m).
Proof.
  assert (K : forall w t, gen (lits ["client"; "server"]%string) w -> ~ In 32 t /\ ends_solid t ->
    gen r_dtls_message (w ++ [32] ++ t)).
  { intros w t W [H (c & x & -> & _)]. unfold r_dtls_message. cbn [cats].
    apply gen_cat; [exact W|]. apply gen_cat; [glit|].
    apply g_none_of1; [destruct x; discriminate|]. intros d J. exact (in_one d 32 _ J H). }
  intros [t|t] W; [apply (K (lit "client") t) | apply (K (lit "server") t)]; try exact W; gword.
Qed.
Lemma g_extmap : forall e, u16 (ext_id e) -> attr_wf (AExtmap e) -> gen r_extmap (show_extmap e).
Proof.
  intros e R [W1 W2]. unfold r_extmap, show_extmap. cbn [cats].
  apply gen_cat; [apply g_upto, R|].
  apply gen_cat; [apply g_show_opt; [reflexivity|]; intros [] _; gword|].
  apply gen_cat; [glit|]. apply gen_cat; [apply g_non_blank, W1|].
  apply g_show_opt; [reflexivity|]. intros t Ht. rewrite Ht in W2. destruct W2 as (l & -> & N & F & _).
  apply g_non_blanks; assumption.
Qed.
Lemma show_HEX_upper : forall n, Forall (fun c => 48 <= c <= 57 \/ 65 <= c <= 70) (show_HEX n).
Proof.
  intro n. unfold show_HEX.
  destruct (show_radix_spec digit_upper 16 n ltac:(lia)) as (ds & Q & F & _). rewrite Q.
  apply Forall_map. eapply Forall_impl; [|exact F]. intros d H. cbv beta in *. unfold digit_upper.
  destruct (d <? 10) eqn:K; lia.
Qed.
Lemma g_octet : forall b, b <= 255 -> gen (times 2 upper_hex) (pad0 2 (show_HEX b)).
Proof.
  intros n H. assert (L : List.length (pad0 2 (show_HEX n)) = 2%nat).
  { apply pad0_length. apply show_radix_length; [lia | lia | change (16 ^ N.of_nat 2) with 256; lia]. }
  rewrite <- L at 1. apply g_times_chars. unfold pad0. apply Forall_app. split; [|apply show_HEX_upper].
  apply Forall_forall. intros c Hc. apply repeat_spec in Hc. subst c. lia.
Qed.
Lemma g_octets : forall l, Forall u8 l ->
  gen (r_octets (List.length l)) (join [58] (map (fun b => pad0 2 (show_HEX b)) l)).
Proof.
  intros l H. destruct H as [|g l Hg H]; [glit|].
  cbn [List.length r_octets map].
  eapply (g_cat _ _ (pad0 2 (show_HEX g)) (List.concat (map (fun x => [58] ++ pad0 2 (show_HEX x)) l)));
    [apply g_octet, Hg | |].
  - rewrite <- (map_length (fun x => [58] ++ pad0 2 (show_HEX x)) l). apply g_times. apply Forall_map.
    eapply Forall_impl; [|exact H]. intros x Hx. apply gen_cat; [glit | apply g_octet, Hx].
  - clear. revert g. induction l as [|y l IH]; intro g; cbn [map join List.concat]; [symmetry; apply app_nil_r|].
    rewrite <- app_assoc. do 2 f_equal. exact (IH y).
Qed.
Lemma g_fingerprint : forall f, attr_range (AFingerprint f) -> gen r_fingerprint (show_fingerprint f).
Proof.
  intros f [R L]. pose proof (g_octets _ R) as G. rewrite L in G.
  unfold show_fingerprint, r_fingerprint. destruct (fp_hash f); cbn [hash_octets] in G.
  - eapply g_alt; [left; reflexivity|].
    apply (g_cat _ _ (lit "sha-1 ") (join [58] (map (fun b => pad0 2 (show_HEX b)) (fp_bytes f)))); [glit | exact G | reflexivity].
  - eapply g_alt; [do 1 right; left; reflexivity|].
    apply (g_cat _ _ (lit "sha-224 ") (join [58] (map (fun b => pad0 2 (show_HEX b)) (fp_bytes f)))); [glit | exact G | reflexivity].
  - eapply g_alt; [do 2 right; left; reflexivity|].
    apply (g_cat _ _ (lit "sha-256 ") (join [58] (map (fun b => pad0 2 (show_HEX b)) (fp_bytes f)))); [glit | exact G | reflexivity].
  - eapply g_alt; [do 3 right; left; reflexivity|].
    apply (g_cat _ _ (lit "sha-384 ") (join [58] (map (fun b => pad0 2 (show_HEX b)) (fp_bytes f)))); [glit | exact G | reflexivity].
  - eapply g_alt; [do 4 right; left; reflexivity|].
    apply (g_cat _ _ (lit "sha-512 ") (join [58] (map (fun b => pad0 2 (show_HEX b)) (fp_bytes f)))); [glit | exact G | reflexivity].
Qed.

(** ** fmtp *)
Definition empty_or (a : abnf) (t : str) : Prop := t = [] \/ gen a t.
Lemma non_empty_gen : forall a l, Forall (empty_or a) l -> Forall (gen a) (filter non_empty l).
Proof.
  intros a l H. induction H as [|t l Ht H IH]; cbn [filter]; [constructor|].
  destruct t as [|c t]; [exact IH|]. cbn [non_empty is_empty negb]. constructor; [|exact IH].
  destruct Ht as [Ht|Ht]; [discriminate Ht | exact Ht].
Qed.
Lemma p_number : forall a max name pre v d, of_string name ++ [61] = pre -> v <= max ->
  (forall t, gen (r_named_number max name) t -> gen a t) -> empty_or a (maybe_param pre v d).
Proof.
  intros a max name pre v d H L G. unfold maybe_param. destruct (v =? d); [left; reflexivity|].
  right. apply G, g_named_number; assumption.
Qed.
Lemma p_opt_number : forall a max name pre o, of_string name ++ [61] = pre -> at_most max o ->
  (forall t, gen (r_named_number max name) t -> gen a t) -> empty_or a (show_opt pre show_N [] o).
Proof.
  intros a max name pre [v|] H L G; cbn [show_opt]; [|left; reflexivity].
  right. rewrite app_nil_r. apply G, g_named_number; assumption.
Qed.
Lemma p_flag : forall a name w v d, of_string name = w ->
  (forall t, gen (r_flag name) t -> gen a t) -> empty_or a (maybe_bool_param w v d).
Proof.
  intros a name w v d <- G. unfold maybe_bool_param. destruct (Bool.eqb v d); [left; reflexivity|].
  right. apply G. unfold r_flag. cbn [cats]. apply gen_cat; [constructor|]. apply gen_cat; [glit|].
  destruct v; gword.
Qed.
Lemma unknown_tokens_join : forall known l, Forall (unknown_token known) l -> l <> [] ->
  unknown_token known (join [44] l).
Proof.
  intros known l H N. destruct H as [|t l [A (n & v & [C D] & K)] H]; [congruence|]. clear N.
  assert (J : ~ In 59 (join [44] (t :: l)) /\ exists w, join [44] (t :: l) = t ++ w).
  { split.
    - clear -A H. revert t A. induction H as [|u l [B _] H IH]; intros t A; [exact A|].
      change (join [44] (t :: u :: l)) with (t ++ [44] ++ join [44] (u :: l)). intro I.
      apply in_app_or in I. destruct I as [I|[I|I]]; [exact (A I) | discriminate I | exact (IH u B I)].
    - destruct l as [|u l]; [exists []; symmetry; apply app_nil_r|]. eexists. reflexivity. }
  destruct J as [J (w & Q)]. split; [exact J|]. exists n, (v ++ w). split; [|exact K].
  split; [|exact D]. rewrite Q, C, <- app_assoc. reflexivity.
Qed.
Lemma g_unknown : forall t, unknown_token (fun n => Exists (means_upper n) fmtp_names) t ->
  gen r_unknown_parameter t.
Proof.
  intros t (A & n & v & [-> C] & K). unfold r_unknown_parameter.
  apply gen_cat.
  - apply g_such; [|exact K]. apply g_none_of. intros c I. apply (in_two c 59 61 n I); [|exact C].
    intro J. apply A, in_or_app. left. exact J.
  - change (61 :: v) with ([61] ++ v). apply gen_cat; [glit|]. apply g_none_of. intros c I.
    apply (in_one c 59 v I). intro J. apply A, in_or_app. right. right. exact J.
Qed.
Lemma unknown_nonempty : forall known t, unknown_token known t -> non_empty t = true.
Proof. intros known t (_ & n & v & [-> _] & _). destruct n; reflexivity. Qed.
Lemma filter_all : forall {A} (f : A -> bool) l, Forall (fun x => f x = true) l -> filter f l = l.
Proof.
  intros A f l H. induction H as [|x l Hx H IH]; cbn [filter]; [reflexivity|]. rewrite Hx, IH. reflexivity.
Qed.
Ltac in_fmtp b := intros ? ?; eapply (g_alt _ _ b); [pick | eassumption].
Lemma g_fmtp_list : forall p, fmtp_range p ->
  Forall (unknown_token (fun n => Exists (means_upper n) fmtp_names)) (unknown_tokens p) ->
  Forall (gen r_fmtp_parameter) (filter non_empty (fmtp_param_list p)).
Proof.
  intros p (R1 & R2 & R3 & R4 & R5 & R6 & R7 & R8 & R9 & R10 & R11 & R12 & R13 & R14 & R15 & R16 & _ & _) U.
  apply non_empty_gen. unfold fmtp_param_list.
  repeat apply Forall_cons; [..|apply Forall_nil].
  - unfold maybe_param_str. destruct (str_eqb _ _); [left; reflexivity|]. right.
    eapply g_alt; [left; reflexivity|]. apply gen_cat; [glit | apply g_profile, R1].
  - apply (p_flag _ "level-asymmetry-allowed"); [reflexivity|]. in_fmtp (r_flag "level-asymmetry-allowed").
  - apply (p_number _ 2 "packetization-mode"); [reflexivity | exact R2 |]. in_fmtp (r_named_number 2 "packetization-mode").
  - apply (p_number _ u32_max "max-fs"); [reflexivity | exact R6 |]. in_fmtp (r_named_number u32_max "max-fs").
  - apply (p_number _ u32_max "max-cpb"); [reflexivity | exact R7 |]. in_fmtp (r_named_number u32_max "max-cpb").
  - apply (p_number _ u32_max "max-dpb"); [reflexivity | exact R8 |]. in_fmtp (r_named_number u32_max "max-dpb").
  - apply (p_number _ u32_max "max-br"); [reflexivity | exact R9 |]. in_fmtp (r_named_number u32_max "max-br").
  - apply (p_number _ u32_max "max-mbps"); [reflexivity | exact R10 |]. in_fmtp (r_named_number u32_max "max-mbps").
  - apply (p_number _ u32_max "max-fr"); [reflexivity | exact R11 |]. in_fmtp (r_named_number u32_max "max-fr").
  - apply (p_opt_number _ 2 "profile"); [reflexivity | exact R3 |]. in_fmtp (r_named_number 2 "profile").
  - apply (p_opt_number _ 31 "level-idx"); [reflexivity | exact R4 |]. in_fmtp (r_named_number 31 "level-idx").
  - apply (p_opt_number _ 1 "tier"); [reflexivity | exact R5 |]. in_fmtp (r_named_number 1 "tier").
  - apply (p_number _ u32_max "maxplaybackrate"); [reflexivity | exact R12 |]. in_fmtp (r_named_number u32_max "maxplaybackrate").
  - apply (p_number _ u32_max "maxaveragebitrate"); [reflexivity | exact R13 |]. in_fmtp (r_named_number u32_max "maxaveragebitrate").
  - apply (p_number _ u32_max "ptime"); [reflexivity | exact R14 |]. in_fmtp (r_named_number u32_max "ptime").
  - apply (p_number _ u32_max "minptime"); [reflexivity | exact R15 |]. in_fmtp (r_named_number u32_max "minptime").
  - apply (p_number _ u32_max "maxptime"); [reflexivity | exact R16 |]. in_fmtp (r_named_number u32_max "maxptime").
  - apply (p_flag _ "usedtx"); [reflexivity|]. in_fmtp (r_flag "usedtx").
  - apply (p_flag _ "stereo"); [reflexivity|]. in_fmtp (r_flag "stereo").
  - apply (p_flag _ "useinbandfec"); [reflexivity|]. in_fmtp (r_flag "useinbandfec").
  - apply (p_flag _ "cbr"); [reflexivity|]. in_fmtp (r_flag "cbr").
  - unfold show_vec. destruct (unknown_tokens p) as [|u us] eqn:Q; [left; reflexivity|]. right.
    rewrite map_id, app_nil_r. cbn [app]. rewrite filter_all.
    + eapply (g_alt _ _ r_unknown_parameter); [pick|]. apply g_unknown, unknown_tokens_join; [exact U | discriminate].
    + eapply Forall_impl; [|exact U]. intros t. apply unknown_nonempty.
Qed.
Lemma g_fmtp : forall f, attr_range (AFmtp f) -> attr_wf (AFmtp f) -> show_fmtp f <> [] ->
  gen r_fmtp (show_fmtp f).
Proof.
  intros f [R1 R] W. cbn [attr_wf] in W. unfold show_fmtp. cbv zeta.
  destruct (show_fmtp_params (fmtp_parameters f)) as [|c t] eqn:Q; cbn [is_empty]; [congruence|]. intros _.
  unfold r_fmtp. cbn [cats]. apply gen_cat; [apply g_upto, R1|]. apply gen_cat; [glit|]. rewrite <- Q.
  assert (NE : show_fmtp_params (fmtp_parameters f) <> []) by (rewrite Q; discriminate). clear Q c t.
  set (p := fmtp_parameters f) in *. clearbody p. clear f R1.
  unfold show_fmtp_params in *. destruct (rtx p) as [r|] eqn:Hr.
  - eapply g_alt; [left; reflexivity|].
    destruct R as (_ & _ & _ & _ & _ & _ & _ & _ & _ & _ & _ & _ & _ & _ & _ & _ & _ & R). rewrite Hr in R.
    destruct R as [Ra Rt]. unfold show_rtx. destruct (rtx_time r) as [t|].
    + rewrite app_assoc. apply gen_cat; [apply g_named_number; [reflexivity | exact Ra]|].
      apply g_opt_some. apply (g_cat _ _ [59] (lit "rtx-time=" ++ show_N t)); [glit | | reflexivity].
      apply g_named_number; [reflexivity | exact Rt].
    + rewrite <- (app_nil_r (lit "apt=" ++ show_N (rtx_apt r))).
      apply gen_cat; [apply g_named_number; [reflexivity | exact Ra] | apply g_opt_none; reflexivity].
  - destruct W as [(We & Wd & U)|[[L D]|[T D]]].
    + rewrite We, Wd in *. cbn [non_empty is_empty negb] in *.
      eapply g_alt; [do 3 right; left; reflexivity|].
      apply (g_join ";"); [|apply g_fmtp_list; [exact R | exact U]].
      intro Z. apply NE. rewrite Z. reflexivity.
    + assert (Q : dtmf_tones p = []) by (rewrite D; reflexivity). rewrite Q. cbn [non_empty is_empty negb].
      destruct R as (_ & _ & _ & _ & _ & _ & _ & _ & _ & _ & _ & _ & _ & _ & _ & _ & R & _).
      destruct (encodings p) as [|a [|b l]]; cbn [List.length] in L; try lia.
      eapply g_alt; [do 1 right; left; reflexivity|]. cbn [cats].
      change (join [c_slash] (map show_N (a :: b :: l))) with
        (show_N a ++ [47] ++ join [47] (map show_N (b :: l))).
      apply gen_cat; [apply g_upto, (Forall_inv R)|]. apply gen_cat; [glit|].
      apply (g_join "/"); [discriminate|]. apply Forall_map. apply Forall_inv_tail in R.
      eapply Forall_impl; [|exact R]. intros x Hx. apply g_upto, Hx.
    + assert (NT : dtmf_tones p <> []).
      { intro Z. rewrite Z in T. destruct T as (ts & F & A).
        clear -F A. remember [] as e eqn:He. destruct F as [t _|a b ts _ _]; [subst t | destruct a; discriminate He].
        apply Forall_inv in A. destruct A as [(n & ds & [Q|Q] & N & _)|(a & b & _ & _ & [Q _] & _)].
        - congruence.
        - discriminate Q.
        - destruct a; discriminate Q. }
      destruct (dtmf_tones p) as [|c t] eqn:Q; [congruence|]. cbn [non_empty is_empty negb].
      eapply g_alt; [do 2 right; left; reflexivity|]. apply g_such; [|exact T].
      apply g_chars1; [discriminate|]. apply Forall_forall. intros. exact I.
Qed.

End WithExt.

(** * Why attributes are refused: all attributes, lines, texts (proofs for C69) *)
From Coq Require Import List NArith ZArith Bool Ascii String Lia.
From Coq Require Import ZifyBool ZifyNat ZifyN.
From Verif Require Import Str Num Net Types Ext Show Address AttrParse Media Session.
From Verif Require Import StrLemmas NumLemmas NetLemmas.
From Verif Require Import SpecApi SpecDoc SpecVal SpecUnsup SpecWarn SpecWhy SpecCause PPanic PDoc PDoc2 PDoc3 PDoc4.
From Verif Require Import PVal PVal2 PVal3 PVal4 PVal5 PVal6 PVal7 PVal8 PVal9 PUnsup PWarn PWhy.
From Verif Require Import PCause PCause2 PCause3 PCause4 PCause5.
Import ListNotations.
Open Scope N_scope.
Open Scope list_scope.

(** ** Every error of the rules is an error *)
Lemma hard_all : forall rs, Forall hardly rs -> hardly (all rs).
Proof. intros rs F e H. exact (hard_broken rs e F H). Qed.
Lemma hard_each : forall r l, (forall x, hardly (r x)) -> hardly (each r l).
Proof. intros r l H. apply hard_all. apply Forall_forall. intros x I. apply in_map_iff in I. destruct I as (y & <- & _). apply H. Qed.
Lemma hard_running : forall r l seen, (forall s x, hardly (r s x)) -> hardly (all (running r seen l)).
Proof.
  intros r l seen H. apply hard_all. revert seen. induction l as [|x l IH]; intro seen; cbn [running]; constructor; auto.
Qed.
Lemma hard_when : forall p r, hardly r -> hardly (when p r).
Proof. intros p r H e [_ X]. exact (H e X). Qed.
Lemma hard_say : forall p t, hardly (say p t).
Proof. intros p t e [_ ->]. apply hard_generic. Qed.
Lemma hard_words : forall v r, (forall l, hardly (r l)) -> hardly (in_words v r).
Proof. intros v r H e (l & _ & X). exact (H l e X). Qed.
Lemma hard_fields : forall s v r, (forall l, hardly (r l)) -> hardly (in_fields s v r).
Proof. intros s v r H e (l & _ & X). exact (H l e X). Qed.
Lemma hard_parts : forall n v r, (forall l, hardly (r l)) -> hardly (in_parts n v r).
Proof. intros n v r H e (l & _ & X). exact (H l e X). Qed.
Lemma hard_brackets : forall s v r, (forall l, hardly (r l)) -> hardly (in_brackets s v r).
Proof. intros s v r H e (l & _ & X). exact (H l e X). Qed.
Lemma hard_before : forall s v r, (forall l, hardly (r l)) -> hardly (before s v r).
Proof. intros s v r H. apply hard_fields. intro l. apply hard_about, H. Qed.
Lemma hard_cut : forall s v r, (forall a b, hardly (r a b)) -> hardly (at_cut s v r).
Proof. intros s v r H e (a & b & _ & X). exact (H a b e X). Qed.
Lemma hard_prefix : forall p v r, (forall x, hardly (r x)) -> hardly (after_prefix p v r).
Proof. intros p v r H e (x & _ & X). exact (H x e X). Qed.
Lemma hard_trimmed : forall v r, (forall x, hardly (r x)) -> hardly (trimmed v r).
Proof. intros v r H e (x & _ & X). exact (H x e X). Qed.
Lemma hard_enclosed : forall v t r, (forall x, hardly (r x)) -> hardly (enclosed v t r).
Proof.
  intros v t r H. apply hard_all. constructor; [apply hard_must|]. constructor; [|constructor].
  intros e (x & _ & X). exact (H x e X).
Qed.
Lemma hard_names : forall is t n, Forall (fun p => hardly (snd p)) t -> hardly (by_name is t n).
Proof. intros is t n F e (w & r & I & _ & X). rewrite Forall_forall in F. exact (F _ I e X). Qed.
Lemma hard_hex : forall m s, hardly (hex_number m s).
Proof. intros m s e (k & _ & ->) x. discriminate. Qed.
Lemma hard_quoted : forall p t s t', hardly (say_quoted p t s t').
Proof. intros p t s t' e (_ & q & _ & ->). apply hard_generic. Qed.

Section WithExt.
Context {E : Ext}.
Lemma hard_address_text : forall s, hardly (address_text s).
Proof. intros s e (_ & m & _ & [[_ ->]|[_ ->]]) x; discriminate. Qed.
Lemma hard_float32 : forall s, hardly (float32 s).
Proof. intros s e (m & _ & ->) x. discriminate. Qed.
Lemma hard_float64 : forall s, hardly (float64 s).
Proof. intros s e (m & _ & ->) x. discriminate. Qed.
Lemma hard_family : forall s, hardly (family_word s).
Proof. intros s e (_ & ->) x. discriminate. Qed.
Lemma hard_payload : forall s, hardly (payload s).
Proof. intros s e (_ & X). exact (hard_number _ _ e X). Qed.
End WithExt.
Ltac hardy := match goal with
  | |- Forall _ [] => constructor
  | |- Forall _ (_ :: _) => constructor; [cbn [snd]; hardy | hardy]
  | |- hardly (must _ _) => apply hard_must
  | |- hardly (filled _ _) => apply hard_must
  | |- hardly (network _) => apply hard_must
  | |- hardly (present _ _ _) => apply hard_must
  | |- hardly (say _ _) => apply hard_say
  | |- hardly (say_quoted _ _ _ _) => apply hard_quoted
  | |- hardly (direction_word _) => apply hard_say
  | |- hardly (number _ _) => apply hard_number
  | |- hardly (hex_number _ _) => apply hard_hex
  | |- hardly (known _) => apply hard_known
  | |- hardly (address_of_kind _ _) => apply hard_address
  | |- hardly (address_text _) => apply hard_address_text
  | |- hardly (float32 _) => apply hard_float32
  | |- hardly (float64 _) => apply hard_float64
  | |- hardly (family_word _) => apply hard_family
  | |- hardly (payload _) => apply hard_payload
  | |- hardly (small_number _ _ _ _) => unfold small_number; hardy
  | |- hardly (all (running _ _ _)) => apply hard_running; intros; hardy
  | |- hardly (all _) => apply hard_all; hardy
  | |- hardly (each _ _) => apply hard_each; intro; hardy
  | |- hardly (when _ _) => apply hard_when; hardy
  | |- hardly (about _ _ _) => apply hard_about; intro; hardy
  | |- hardly (in_words _ _) => apply hard_words; intro; hardy
  | |- hardly (in_fields _ _ _) => apply hard_fields; intro; hardy
  | |- hardly (in_parts _ _ _) => apply hard_parts; intro; hardy
  | |- hardly (in_brackets _ _ _) => apply hard_brackets; intro; hardy
  | |- hardly (before _ _ _) => apply hard_before; intro; hardy
  | |- hardly (at_cut _ _ _) => apply hard_cut; intros ? ?; hardy
  | |- hardly (after_prefix _ _ _) => apply hard_prefix; intro; hardy
  | |- hardly (trimmed _ _) => apply hard_trimmed; intro; hardy
  | |- hardly (enclosed _ _ _) => apply hard_enclosed; intro; hardy
  | |- hardly (by_name _ _ _) => apply hard_names; hardy
  | _ => idtac end.

Section WithExt2.
Context {E : Ext}.
Lemma hard_candidate : forall v, hardly (candidate_rule v).
Proof.
  intro v. unfold candidate_rule. hardy. generalize (skipn 8 l). fix IH 1. intros [|a [|b m]]; cbn [extensions].
  - constructor.
  - hardy.
  - constructor; [unfold extension; hardy | apply IH].
Qed.
Lemma hard_fingerprint : forall v, hardly (fingerprint_rule v).
Proof.
  intro v. unfold fingerprint_rule. hardy; try (unfold octet; hardy).
  intros e (h & d1 & d2 & _ & _ & _ & _ & ->). apply hard_generic.
Qed.
Lemma hard_rtcp_fb : forall v, hardly (rtcp_fb_rule v).
Proof.
  intro v. unfold rtcp_fb_rule, rtcp_fb_rules. hardy. unfold trr_int. destruct (nth_error _ _); hardy.
Qed.
Lemma hard_sctp_port : forall v, hardly (sctp_port_rule v).
Proof.
  intro v. unfold sctp_port_rule. hardy. intros e (n & d & _ & _ & _ & ->). apply hard_generic.
Qed.
Lemma hard_fmtp : forall v, hardly (fmtp_rule v).
Proof.
  intro v. unfold fmtp_rule, fmtp_block_rule. hardy. unfold fmtp_parameter_rule, fmtp_table, fmtp_flag. hardy.
Qed.
Lemma hard_rid : forall v, hardly (rid_rule v).
Proof. intro v. unfold rid_rule, rid_parameters_rule, rid_parameter_rule. hardy. Qed.
Lemma hard_image_set : forall v, hardly (image_set_rule v).
Proof.
  intro v. unfold image_set_rule. hardy; unfold xy_rule; hardy.
  unfold image_key. hardy; unfold sar_rule, par_rule; hardy; unfold float_range_rule; hardy.
Qed.
Lemma hard_image_list : forall l next, (forall m, hardly (next m)) -> hardly (image_list l next).
Proof.
  intros l next H. unfold image_list. hardy. intros e (first & more & _ & [[_ X]|[_ X]]).
  - exact (hard_each _ _ hard_image_set e X).
  - exact (H _ e X).
Qed.
Lemma hard_image_attr : forall v, hardly (image_attr_rule v).
Proof.
  intro v. unfold image_attr_rule. hardy. apply hard_image_list. intro m. hardy. apply hard_image_list. intro. hardy.
Qed.
Lemma hard_table : forall v, Forall (fun p => hardly (snd p)) (attribute_table v).
Proof.
  intro v. unfold attribute_table. hardy;
    first [ apply hard_candidate | apply hard_fingerprint | apply hard_rtcp_fb | apply hard_sctp_port | apply hard_fmtp
          | apply hard_rid | apply hard_image_attr
          | unfold dtls_rule, extmap_rule, framerate_rule, group_rule, msid_rule, msid_semantic_rule, remote_candidates_rule,
              rtpmap_rule, rtcp_rule, sctpmap_rule, simulcast_rule, simulcast_list, ssrc_rule, ssrc_group_rule; cbv zeta; hardy ].
Qed.
Lemma hard_attribute : forall v e, attribute_wrong v e -> hard e.
Proof.
  intros v e (t & _ & [(n & r & f & _ & _ & _ & ->)|[(n & r & x & _ & _ & H)|[_ H]]]).
  - apply hard_generic.
  - revert H. apply hard_names, hard_table.
  - revert H. apply hard_names, hard_table.
Qed.

(** ** All attributes *)
Fixpoint lookup (w : string) (t : list (string * rule)) : option rule :=
  match t with [] => None | (x, r) :: t' => if String.eqb x w then Some r else lookup w t' end.
Fixpoint distinct (l : list string) : bool :=
  match l with [] => true | x :: l' => negb (existsb (String.eqb x) l') && distinct l' end.
Lemma lookup_none : forall w t, existsb (String.eqb w) (map fst t) = false -> lookup w t = None.
Proof.
  intros w t. induction t as [|[x r] t IH]; cbn [map fst existsb lookup]; [reflexivity|].
  rewrite (String.eqb_sym x w). destruct (String.eqb w x); [discriminate | exact IH].
Qed.
Lemma lookup_same : forall (is : str -> string -> Prop) t n w, (forall w', In w' (map fst t) -> (is n w' <-> w' = w)) ->
  distinct (map fst t) = true ->
  same (by_name is t n) (match lookup w t with Some r => r | None => no_rule end).
Proof.
  intros is t n w. induction t as [|[x r] t IH]; intros H D; cbn [lookup].
  - apply by_name_nil.
  - cbn [map fst distinct] in D. apply andb_prop in D. destruct D as [D1 D2].
    destruct (String.eqb_spec x w) as [Q|Q].
    + subst x. apply by_name_yes; [apply H; [left; reflexivity | reflexivity]|].
      intros w' r' I K. assert (I' : In w' (map fst t)) by (apply in_map_iff; exists (w', r'); auto).
      apply H in K; [|right; exact I']. subst w'.
      assert (X : existsb (String.eqb w) (map fst t) = true); [|rewrite X in D1; discriminate].
      apply existsb_exists. exists w. split; [exact I' | apply String.eqb_refl].
    + eapply same_trans; [apply by_name_no|].
      * intro K. apply H in K; [contradiction | left; reflexivity].
      * apply IH; [|exact D2]. intros w' I. apply H. right. exact I.
Qed.
Lemma table_same : forall v n w, to_lower n = of_string w ->
  same (by_name means (attribute_table v) n) (match lookup w (attribute_table v) with Some r => r | None => no_rule end).
Proof.
  intros v n w Q. apply lookup_same; [|reflexivity]. intros w' I.
  assert (L : lower_word (of_string w') = true).
  { assert (F : forallb (fun w => lower_word (of_string w)) (map fst (attribute_table v)) = true) by reflexivity.
    rewrite forallb_forall in F. apply F, I. }
  rewrite (means_iff _ _ L), Q. split; [intro X; apply of_string_inj in X; congruence | congruence].
Qed.
Definition values (v n : str) : res ierr attr :=
  match assoc_str (to_lower n) attr_parsers with
  | Some p => p v
  | None => Err (unsupf "Unknown attribute type {}" [to_lower n])
  end.
Lemma string_kept : forall (f : str -> attr) v, kept (x <- string_or_empty v ;; Ok (f x)) (filled "This attribute is required to have a value" v).
Proof.
  intros f v. apply k_map. unfold string_or_empty, filled. apply k_single. destruct v as [|c v]; cbn [is_empty].
  - apply k_must_err; [congruence | reflexivity].
  - apply k_must_ok; [discriminate | apply k_nil].
Qed.
Lemma ice_options_kept : forall v, kept (parse_ice_options v) (filled "ice-options is required to have a value" v).
Proof.
  intro v. unfold parse_ice_options, filled. apply k_single. destruct v as [|c v]; cbn [is_empty].
  - apply k_must_err; [congruence | reflexivity].
  - apply k_must_ok; [discriminate | apply k_nil].
Qed.
Lemma ice_pacing_kept : forall v, kept (parse_ice_pacing v)
  (small_number u64_max 9999999999 "ice-pacing value is not a 10 digit integer" v).
Proof.
  intro v. unfold parse_ice_pacing. apply k_single.
  pose proof (k_small (A:=attr) u64_max 9999999999 "ice-pacing value is not a 10 digit integer" v _
    (fun n => Ok (AIcePacing n)) [] eq_refl (fun n _ _ => k_nil _)) as K.
  unfold p_u64, parse_u64. destruct (res_map_err EInteger (parse_uint 10 u64_max v)) as [n| |]; cbn [bind] in *; try exact K.
  replace (10000000000 <=? n) with (9999999999 <? n); [exact K|].
  destruct (N.ltb_spec 9999999999 n), (N.leb_spec 10000000000 n); lia.
Qed.
Lemma setup_kept : forall v, kept (parse_setup v) (must (exists x, means v (setup_name x)) "Unsupported setup value").
Proof.
  intro v. unfold parse_setup. apply k_single, k_table; [|reflexivity | intros; apply k_nil].
  intro x. rewrite means_iff by (destruct x; reflexivity). apply table_iff.
  - repeat constructor.
  - intros []; reflexivity.
Qed.
Lemma ok_none : forall (a : attr) e, snd no_rule e <-> (Ok a : res ierr attr) = Err e.
Proof. intros a e. cbn [no_rule snd]. split; [tauto | discriminate]. Qed.
Definition parsers : list (string * (str -> res ierr attr)) :=
  [ ("bundle-only", fun _ => Ok ABundleOnly);
    ("dtls-message", parse_dtls_message);
    ("end-of-candidates", fun _ => Ok AEndOfCandidates);
    ("ice-lite", fun _ => Ok AIceLite);
    ("ice-mismatch", fun _ => Ok AIceMismatch);
    ("extmap-allow-mixed", fun _ => Ok AExtmapAllowMixed);
    ("ice-pwd", fun v => x <- string_or_empty v ;; Ok (AIcePwd x));
    ("ice-ufrag", fun v => x <- string_or_empty v ;; Ok (AIceUfrag x));
    ("identity", fun v => x <- string_or_empty v ;; Ok (AIdentity x));
    ("imageattr", parse_image_attr);
    ("inactive", fun _ => Ok AInactive);
    ("label", fun v => x <- string_or_empty v ;; Ok (ALabel x));
    ("max-message-size", fun v => x <- p_u64 v ;; Ok (AMaxMessageSize x));
    ("maxptime", fun v => x <- p_u64 v ;; Ok (AMaxPtime x));
    ("mid", fun v => x <- string_or_empty v ;; Ok (AMid x));
    ("msid-semantic", parse_msid_semantic);
    ("ptime", fun v => x <- p_u64 v ;; Ok (APtime x));
    ("ice-pacing", parse_ice_pacing);
    ("rid", parse_rid);
    ("recvonly", fun _ => Ok ARecvonly);
    ("rtcp-mux", fun _ => Ok ARtcpMux);
    ("rtcp-mux-only", fun _ => Ok ARtcpMuxOnly);
    ("rtcp-rsize", fun _ => Ok ARtcpRsize);
    ("sendonly", fun _ => Ok ASendonly);
    ("sendrecv", fun _ => Ok ASendrecv);
    ("ssrc-group", parse_ssrc_group);
    ("sctp-port", parse_sctp_port);
    ("candidate", parse_candidate);
    ("extmap", parse_extmap);
    ("fingerprint", parse_fingerprint);
    ("fmtp", parse_fmtp);
    ("framerate", parse_framerate);
    ("group", parse_group);
    ("ice-options", parse_ice_options);
    ("msid", parse_msid);
    ("remote-candidates", parse_remote_candidates);
    ("rtpmap", parse_rtpmap);
    ("rtcp", parse_rtcp);
    ("rtcp-fb", parse_rtcp_fb);
    ("sctpmap", parse_sctpmap);
    ("setup", parse_setup);
    ("simulcast", parse_simulcast);
    ("ssrc", parse_ssrc) ]%string.
Lemma parsers_all : attr_parsers = map (fun p => (of_string (fst p), snd p)) parsers.
Proof. reflexivity. Qed.
Definition matches (v : str) (p : string * (str -> res ierr attr)) : Prop :=
  match lookup (fst p) (attribute_table v) with Some r => kept (snd p v) r | None => exists a, snd p v = Ok a end.
Lemma parsers_match : forall v, short (List.length v) -> Forall (matches v) parsers.
Proof.
  intros v L. unfold parsers.
  repeat (apply Forall_cons; [unfold matches, attribute_table; cbn [fst snd lookup String.eqb Ascii.eqb Bool.eqb]|]);
    try apply Forall_nil;
    try (eexists; reflexivity);
    first [ apply string_kept | apply k_map; apply number_kept | apply dtls_kept | apply (image_attr_kept v L) | apply msid_semantic_kept
          | apply ice_pacing_kept | apply rid_kept | apply ssrc_group_kept | apply sctp_port_kept | apply candidate_kept
          | apply extmap_kept | apply fingerprint_kept | apply fmtp_kept | apply framerate_kept | apply group_kept
          | apply ice_options_kept | apply msid_kept | apply remote_candidates_kept | apply rtpmap_kept | apply rtcp_kept
          | apply rtcp_fb_kept | apply sctpmap_kept | apply setup_kept | apply simulcast_kept
          | unfold parse_ssrc; apply k_map, ssrc_kept ].
Qed.
Lemma assoc_of : forall {A} n (l : list (string * A)),
  match assoc_str n (map (fun p => (of_string (fst p), snd p)) l) with
  | Some a => exists w, n = of_string w /\ In (w, a) l
  | None => forall w a, In (w, a) l -> n <> of_string w
  end.
Proof.
  intros A n l. induction l as [|[w a] l IH]; cbn [map fst snd assoc_str]; [intros w a []|].
  destruct (str_eqb_spec n (of_string w)) as [Q|Q].
  - exists w. split; [exact Q | left; reflexivity].
  - destruct (assoc_str n _) as [b|].
    + destruct IH as (x & Hx & I). exists x. split; [exact Hx | right; exact I].
    + intros x b [Z|I]; [injection Z as <- <-; exact Q | exact (IH x b I)].
Qed.
Lemma values_why : forall v n e, hard e -> short (List.length v) ->
  (snd (by_name means (attribute_table v) n) e <-> values v n = Err e).
Proof.
  intros v n e He L. unfold values. rewrite parsers_all.
  pose proof (assoc_of (to_lower n) parsers) as A. destruct (assoc_str _ _) as [p|].
  - destruct A as (w & Q & I). pose proof (parsers_match v L) as F. rewrite Forall_forall in F. specialize (F _ I).
    destruct (table_same v n w Q) as [_ T]. rewrite (T e). unfold matches in F. cbn [fst snd] in F.
    destruct (lookup w (attribute_table v)) as [r|].
    + destruct F as [_ K]. exact (K e He).
    + destruct F as (a & ->). apply ok_none.
  - split.
    + intros (w & r & I & M & _). exfalso.
      assert (X : forallb (fun w => existsb (String.eqb w) (map fst parsers)) (map fst (attribute_table v)) = true) by reflexivity.
      rewrite forallb_forall in X. assert (I' : In w (map fst (attribute_table v))) by (apply in_map_iff; exists (w, r); auto).
      specialize (X _ I'). apply existsb_exists in X. destruct X as (w' & J & Y). apply String.eqb_eq in Y. subst w'.
      apply in_map_iff in J. destruct J as ([w0 p] & Y & J). cbn [fst] in Y. subst w0.
      apply (A w p J).
      assert (F : forallb (fun w => lower_word (of_string w)) (map fst (attribute_table v)) = true) by reflexivity.
      rewrite forallb_forall in F. apply (means_iff _ _ (F _ I')) in M. exact M.
    + intro X. exfalso. match type of X with Err ?m = Err _ => assert (Q : e = m) by congruence end.
      subst e. exact (He _ eq_refl).
Qed.
Lemma flags_all : flag_names = map of_string flags.
Proof. reflexivity. Qed.
Lemma flags_iff : forall n, mem_str (to_lower n) flag_names = true <-> exists f, In f flags /\ means n f /\ to_lower n = of_string f.
Proof.
  intro n. assert (F : forallb (fun w => lower_word (of_string w)) flags = true) by reflexivity. rewrite forallb_forall in F.
  rewrite flags_all. unfold mem_str. rewrite existsb_exists. split.
  - intros (x & I & Q). destruct (str_eqb_spec (to_lower n) x) as [Z|Z]; [|discriminate]. subst x.
    apply in_map_iff in I. destruct I as (f & Qf & I). exists f. split; [exact I|]. split; [|congruence].
    apply (means_iff _ _ (F _ I)). congruence.
  - intros (f & I & _ & Q). exists (of_string f). split; [apply in_map, I|]. rewrite Q. apply str_eqb_refl.
Qed.
Lemma table_flag : forall v n f, In f flags -> to_lower n = of_string f -> forall e, ~ snd (by_name means (attribute_table v) n) e.
Proof.
  intros v n f I Q e H. destruct (table_same v n f Q) as [_ T]. apply T in H.
  rewrite lookup_none in H; [exact H|].
  assert (F : forallb (fun f => negb (existsb (String.eqb f) (map fst (attribute_table v)))) flags = true) by reflexivity.
  rewrite forallb_forall in F. specialize (F _ I). destruct (existsb _ _); [discriminate | reflexivity].
Qed.
Lemma flag_text : forall n f, to_lower n = of_string f ->
  genf "{} attribute is not allowed to have a value" [to_lower n] =
  EGeneric (of_string f ++ lit " attribute is not allowed to have a value").
Proof. intros n f ->. unfold fmt. cbn [fmt_chars]. reflexivity. Qed.
Lemma trim_length : forall v, (List.length (trim v) <= List.length v)%nat.
Proof.
  intro v. destruct (trim_decompose v) as (x & y & Q & _). apply (f_equal (@List.length _)) in Q. rewrite !app_length in Q. lia.
Qed.
Lemma attribute_why : forall v e, hard e -> short (List.length v) ->
  (attribute_wrong v e <-> attr_from_str (trim v) = Err e).
Proof.
  intros v e He L. unfold attribute_wrong.
  assert (W : forall P : str -> Prop, (exists t, core v t /\ P t) <-> P (trim v)).
  { intro P. split; [intros (t & C & H); apply core_trim in C; subst t; exact H|].
    intro H. exists (trim v). split; [apply core_trim; reflexivity | exact H]. }
  rewrite (W (fun t => (exists n rest f, cut 58 t n rest /\ In f flags /\ means n f /\
        e = EGeneric (of_string f ++ lit " attribute is not allowed to have a value")) \/
     (exists n rest x, cut 58 t n rest /\ core rest x /\ snd (by_name means (attribute_table x) n) e) \/
     (~ In 58 t /\ snd (by_name means (attribute_table []) t) e))). clear W.
  pose proof (trim_length v) as Lt. revert Lt. generalize (trim v). intros t Lt.
  unfold attr_from_str. cbv zeta.
  destruct (splitn2_cases c_colon t) as [[N W] | (x & y & Ev & N & W)]; rewrite W;
    cbn [idx nth_error bind List.length Nat.ltb Nat.leb]; cbn [andb].
  - apply contains_not_In in N. change c_colon with 58 in N. fold (values [] t).
    rewrite <- (values_why [] t e He) by (unfold short in *; cbn [List.length]; lia).
    split.
    + intros [(n & r & f & C & _)|[(n & r & x & C & _)|[_ H]]]; [apply cut_In in C; contradiction..|exact H].
    + intro H. right. right. split; assumption.
  - apply contains_not_In in N. change c_colon with 58 in *.
    assert (Ct : cut 58 t x y) by (split; assumption).
    assert (I : In 58 t) by (exact (cut_In _ _ _ _ Ct)).
    destruct (mem_str (to_lower x) flag_names) eqn:M.
    + apply flags_iff in M. destruct M as (f & If & Mf & Qf). rewrite (flag_text _ _ Qf). split.
      * intros [(n & r & g & C & Ig & Mg & ->)|[(n & r & z & C & _ & H)|[K _]]]; [| |contradiction].
        -- destruct (cut_fun _ _ _ _ _ _ C Ct) as [-> ->].
           assert (F : forallb (fun w => lower_word (of_string w)) flags = true) by reflexivity. rewrite forallb_forall in F.
           apply (means_iff _ _ (F _ Ig)) in Mg. rewrite Qf in Mg. apply of_string_inj in Mg. subst g. reflexivity.
        -- destruct (cut_fun _ _ _ _ _ _ C Ct) as [-> ->]. destruct (table_flag _ _ _ If Qf _ H).
      * intro H. left. exists x, y, f. split; [exact Ct|]. split; [exact If|]. split; [exact Mf|].
        match type of H with Err ?m = Err _ => assert (Q : e = m) by congruence end. exact Q.
    + assert (Ly : short (List.length (trim y))).
      { pose proof (trim_length y). subst t. rewrite app_length in Lt. cbn [List.length] in Lt. unfold short in *. lia. }
      fold (values (trim y) x). rewrite <- (values_why (trim y) x e He Ly). split.
      * intros [(n & r & g & C & Ig & Mg & _)|[(n & r & z & C & Cz & H)|[K _]]]; [| |contradiction].
        -- exfalso. destruct (cut_fun _ _ _ _ _ _ C Ct) as [-> ->].
           assert (F : forallb (fun w => lower_word (of_string w)) flags = true) by reflexivity. rewrite forallb_forall in F.
           assert (Qg := Mg). apply (means_iff _ _ (F _ Ig)) in Qg.
           assert (X : mem_str (to_lower x) flag_names = true) by (apply flags_iff; eauto). congruence.
        -- destruct (cut_fun _ _ _ _ _ _ C Ct) as [-> ->]. apply core_trim in Cz. subst z. exact H.
      * intro H. right. left. exists x, y, (trim y). split; [exact Ct|]. split; [apply core_trim; reflexivity | exact H].
Qed.

(** ** Lines *)
Lemma type_a : forall c, of_type c "a" <-> ascii_lower c = 97.
Proof.
  intro c. split.
  - intros (d & Q & S0). injection Q as <-. exact S0.
  - intro H. exists 97. split; [reflexivity | exact H].
Qed.
Lemma attribute_eval : forall line n w1 c w2 v, line = w1 ++ [c] ++ w2 ++ 61 :: v -> blank w1 -> blank w2 -> ~ blank v ->
  of_type c "a" -> cut 61 line (w1 ++ [c] ++ w2) v /\ trim (w1 ++ [c] ++ w2) = [c] /\
  parse_sdp_line line n = match parse_value [97] (trim v) v with
      | Ok t => Ok {| l_number := n; l_type := t; l_text := line |}
      | Err e => Err (line_error line n e) | Panic => Panic end.
Proof.
  intros line n w1 c w2 v El B1 B2 Nb T. apply type_a in T.
  apply blank_forallb in B1, B2.
    assert (Lc : c < 128 /\ c <> 61 /\ is_ws c = false).
    { unfold ascii_lower in T. destruct ((65 <=? c) && (c <=? 90)) eqn:K.
      - split; [lia|]. split; [lia|]. unfold is_ws. lia.
      - split; [lia|]. split; [lia|]. unfold is_ws. lia. }
    destruct Lc as (Lc & Nc & Wc).
    assert (Ct : cut 61 line (w1 ++ [c] ++ w2) v).
    { split; [rewrite El, <- !app_assoc; reflexivity|]. intro I.
      rewrite forallb_forall in B1, B2.
      apply in_app_or in I. destruct I as [I|I]; [apply B1 in I; discriminate|].
      apply in_app_or in I. destruct I as [[I|[]]|I]; [congruence|]. apply B2 in I. discriminate. }
    assert (Tt : trim (w1 ++ [c] ++ w2) = [c]).
    { symmetry. apply core_trim. exists w1, w2. split; [reflexivity|].
      split; [apply blank_forallb; exact B1|]. split; [apply blank_forallb; exact B2|].
      right. split; [exists c, []; auto | exists c, []; auto]. }
    split; [exact Ct|]. split; [exact Tt|].
    unfold parse_sdp_line.
    pose proof (cut_In _ _ _ _ Ct) as Ie. apply contains_In in Ie. change (contains c_eq line = true) in Ie.
    rewrite Ie. cbn [negb]. apply cut_splitn2 in Ct. change 61 with c_eq in Ct. rewrite Ct. cbv zeta.
    rewrite Tt. assert (Bl : byte_len [c] = 1).
    { unfold byte_len. cbn [fold_right]. unfold utf8_len. destruct (N.ltb_spec c 128); [reflexivity | lia]. }
    rewrite Bl. cbn [N.ltb N.compare Pos.compare Pos.compare_cont is_empty].
    rewrite lower_one by exact Lc. rewrite T.
    destruct (is_empty (trim v)) eqn:Em.
    { exfalso. apply Nb. apply blank_trim. exact Em. }
    cbn [andb]. reflexivity.
Qed.
Lemma attribute_line_dec : forall line, attribute_line line \/ ~ attribute_line line.
Proof.
  intro line. destruct (contains 61 line) eqn:C.
  2:{ right. intros (w1 & c & w2 & v & -> & _). apply contains_not_In in C. apply C.
      rewrite !in_app_iff. right. right. right. left. reflexivity. }
  destruct (splitn2_eq line C) as (t & v & Sp). apply cut_splitn2 in Sp. change c_eq with 61 in Sp.
  assert (No : forall w1 c w2 v', line = w1 ++ [c] ++ w2 ++ 61 :: v' -> blank w1 -> blank w2 -> ~ blank v' -> of_type c "a" ->
    v' = v /\ trim t = [c]).
  { intros w1 c w2 v' El B1 B2 Nb T. destruct (attribute_eval line 0 w1 c w2 v' El B1 B2 Nb T) as (Ct & Tt & _).
    destruct (cut_fun _ _ _ _ _ _ Ct Sp) as [Q ->]. rewrite <- Q. auto. }
  destruct (trim t) as [|c [|c' l]] eqn:Tt.
  1, 3: right; intros (w1 & c0 & w2 & v' & El & B1 & B2 & Nb & T); destruct (No _ _ _ _ El B1 B2 Nb T) as [_ Q]; discriminate.
  destruct (N.eq_dec (ascii_lower c) 97) as [A|A].
  2:{ right; intros (w1 & c0 & w2 & v' & El & B1 & B2 & Nb & T); destruct (No _ _ _ _ El B1 B2 Nb T) as [_ Q].
      injection Q as ->. apply type_a in T. contradiction. }
  destruct (is_empty (trim v)) eqn:Em.
  - right; intros (w1 & c0 & w2 & v' & El & B1 & B2 & Nb & T); destruct (No _ _ _ _ El B1 B2 Nb T) as [-> _].
    apply Nb, blank_trim, Em.
  - left. destruct (trim_decompose t) as (x & y & Et & Bx & By). rewrite Tt in Et.
    exists x, c, y, v. destruct Sp as [El _]. split; [rewrite El, Et, <- !app_assoc; reflexivity|].
    split; [apply blank_forallb, Bx|]. split; [apply blank_forallb, By|].
    split; [|apply type_a, A]. intro B. apply blank_trim in B. congruence.
Qed.
Lemma refused_why : forall line n e, short (List.length line) ->
  (parse_sdp_line line n = Err (PLine e line n) <-> refused line e).
Proof.
  intros line n e L. unfold refused. destruct (attribute_line_dec line) as [A|A].
  2:{ rewrite (line_why line n e A). split; [intro H; right; auto|]. intros [(w1 & c & w2 & v & El & B1 & B2 & Nb & T & _)|[_ H]]; [|exact H].
      exfalso. apply A. exists w1, c, w2, v. auto. }
  assert (P : forall w1 c w2 v, line = w1 ++ [c] ++ w2 ++ 61 :: v -> blank w1 -> blank w2 -> ~ blank v -> of_type c "a" ->
    (parse_sdp_line line n = Err (PLine e line n) <-> attribute_wrong v e)).
  { intros w1 c w2 v El B1 B2 Nb T. destruct (attribute_eval line n w1 c w2 v El B1 B2 Nb T) as (Ct & _ & ->).
    assert (Q : parse_value [97] (trim v) v = bind (attr_from_str (trim v)) (fun a => Ok (TyAttribute a))).
    { unfold parse_value. change (str_eqb [97] (lit "a")) with true. cbv iota. unfold parse_attribute.
      rewrite trim_idem. reflexivity. }
    rewrite Q. assert (Lv : short (List.length v)).
    { rewrite El in L. rewrite !app_length in L. cbn [List.length] in L. unfold short in *. lia. }
    split.
    - intro H. destruct (attr_from_str (trim v)) as [a|x|] eqn:K; cbn [bind] in H; try discriminate.
      assert (x = e /\ hard x) as [-> Hx].
      { unfold line_error in H. destruct x; try discriminate; (split; [congruence | intros z Z; discriminate]). }
      apply (attribute_why v e Hx Lv), K.
    - intro H. pose proof (hard_attribute v e H) as He. apply (attribute_why v e He Lv) in H. rewrite H. cbn [bind].
      unfold line_error. destruct e; try reflexivity. destruct (He _ eq_refl). }
  split.
  - intro H. left. destruct A as (w1 & c & w2 & v & El & B1 & B2 & Nb & T). exists w1, c, w2, v.
    repeat (split; [assumption|]). apply (P w1 c w2 v El B1 B2 Nb T), H.
  - intros [(w1 & c & w2 & v & El & B1 & B2 & Nb & T & H)|[Na _]]; [|contradiction].
    apply (P w1 c w2 v El B1 B2 Nb T), H.
Qed.

(** ** Texts *)
Lemma last_cons : forall x l, last_error (x :: l) = match last_error l with Some y => Some y | None => Some x end.
Proof. intros x l. unfold last_error. cbn [rev]. destruct (rev l); reflexivity. Qed.
Definition final (ls : list str) (n : nat) (H : list perr) : Prop :=
  (H = [] <-> forall x e, In x ls -> ~ blank x -> ~ refused x e) /\
  (forall e line k, last_error H = Some (PLine e line k) <->
     exists pre post, ls = pre ++ line :: post /\ k = (n + List.length pre)%nat /\ ~ blank line /\ refused line e /\
       (forall x e', In x post -> ~ blank x -> ~ refused x e')).
Lemma final_skip : forall x r n H, (forall e, ~ blank x -> ~ refused x e) -> final r (S n) H -> final (x :: r) n H.
Proof.
  intros x r n H K [F1 F2]. split.
  - rewrite F1. split; intros G y e.
    + intros [<-|I] Nb; [apply K, Nb | apply G; assumption].
    + intros I. apply G. right. exact I.
  - intros e line k. rewrite F2. split.
    + intros (pre & post & -> & -> & Q). exists (x :: pre), post. split; [reflexivity|]. split; [cbn [List.length]; lia | exact Q].
    + intros (pre & post & Q & -> & Nb & R & G). destruct pre as [|y pre].
      * injection Q as <- <-. destruct (K e Nb R).
      * injection Q as <- ->. exists pre, post. split; [reflexivity|]. split; [cbn [List.length]; lia | auto].
Qed.
Lemma final_hard : forall x r n H e, ~ blank x -> (forall e', refused x e' <-> e' = e) -> final r (S n) H ->
  (forall p, last_error H = Some p -> exists e line k, p = PLine e line k) -> final (x :: r) n (PLine e x n :: H).
Proof.
  intros x r n H e Nb K [F1 F2] A. split.
  - split; [discriminate|]. intro G. exfalso. apply (G x e); [left; reflexivity | exact Nb | apply K; reflexivity].
  - intros e1 line k. rewrite last_cons. destruct (last_error H) as [p|] eqn:LE.
    + rewrite F2. split.
      * intros (pre & post & -> & -> & Q). exists (x :: pre), post. split; [reflexivity|]. split; [cbn [List.length]; lia | exact Q].
      * intros (pre & post & Q & -> & Nb' & R & G). destruct pre as [|y pre].
        -- injection Q as <- <-. exfalso. destruct (A p eq_refl) as (e2 & l2 & k2 & ->).
           assert (X : Some (PLine e2 l2 k2) = Some (PLine e2 l2 k2)) by reflexivity.
           apply F2 in X. destruct X as (pre & post & -> & _ & Nb2 & R2 & _).
           apply (G l2 e2); [apply in_or_app; right; left; reflexivity | exact Nb2 | exact R2].
        -- injection Q as <- ->. exists pre, post. split; [reflexivity|]. split; [cbn [List.length]; lia | auto].
    + apply last_error_nil in LE. split.
      * intro Q. injection Q as <- <- <-. exists [], r. split; [reflexivity|]. split; [cbn [List.length]; lia|].
        split; [exact Nb|]. split; [apply K; reflexivity|]. apply F1, LE.
      * intros (pre & post & Q & -> & Nb' & R & G). destruct pre as [|y pre].
        -- injection Q as <- <-. apply K in R. subst e1. cbn [List.length]. rewrite Nat.add_0_r. reflexivity.
        -- injection Q as <- ->. exfalso. assert (G1 := proj1 F1 LE). apply (G1 line e1); [apply in_or_app; right; left; reflexivity | assumption..].
Qed.
Lemma scan_plines : forall ls n L H W, Scan n ls L H W -> Forall (fun p => exists e line k, p = PLine e line k) H.
Proof. intros ls n L H W S0. induction S0; try assumption; constructor; eauto. Qed.
Lemma scan_warnings : forall ls n L H W, Scan n ls L H W -> Forall (fun p => exists e line k, p = PUnsupported e line k) W.
Proof. intros ls n L H W S0. induction S0; try assumption; constructor; eauto. Qed.
Lemma last_in : forall l p, last_error l = Some p -> In p l.
Proof. intros l p H. unfold last_error in H. apply in_rev. destruct (rev l); [discriminate|]. injection H as ->. left. reflexivity. Qed.
Lemma scan_last : forall ls n L H W, Scan n ls L H W -> Forall (fun x => short (List.length x)) ls -> final ls n H.
Proof.
  intros ls n L H W S0. induction S0 as [n|n x r L H W B S0 IH|n x r L H W l B P S0 IH|n x r L H W e B P S0 IH|n x r L H W e B P S0 IH];
    intro F; try (inversion F as [|? ? F1 F2]; subst; specialize (IH F2)).
  - split; [split; [intros _ x e [] | reflexivity]|]. intros e line k. split; [discriminate|].
    intros (pre & post & Q & _). destruct pre; discriminate.
  - apply final_skip; [|exact IH]. intros e Nb. contradiction.
  - apply final_skip; [|exact IH]. intros e _ R. apply (refused_why x n e F1) in R. congruence.
  - apply final_skip; [|exact IH]. intros e' _ R. apply (refused_why x n e' F1) in R. congruence.
  - apply final_hard; [exact B | | exact IH |].
    + intro e'. rewrite <- (refused_why x n e' F1), P. split; [congruence | intros ->; reflexivity].
    + intros p LE. apply last_in in LE. pose proof (scan_plines _ _ _ _ _ S0) as G. rewrite Forall_forall in G. exact (G p LE).
Qed.
Lemma scan_unsupported : forall ls n L H W, Scan n ls L H W ->
  (W = [] <-> forall x, In x ls -> ~ blank x -> ~ line_unsupported x).
Proof.
  intros ls n L H W S0. induction S0 as [n|n x r L H W B S0 IH|n x r L H W l B P S0 IH|n x r L H W e B P S0 IH|n x r L H W e B P S0 IH].
  1: split; [intros _ x [] | reflexivity].
  3:{ split; [discriminate|]. intro G. exfalso. apply (G x (or_introl eq_refl) B). apply (line_unsupported_iff x n).
      exists e. exact P. }
  all: rewrite IH; split; intros G y.
  all: try (intro I; apply G; right; exact I).
  all: intros [<-|I] Nb; [|apply G; assumption].
  1: contradiction.
  all: intro U; apply (line_unsupported_iff x n) in U; destruct U as (m & U); congruence.
Qed.
Lemma doc_short : forall d, doc_ok d -> (Z.of_nat (List.length (doc_text d)) < 2147483648)%Z ->
  Forall (fun x => short (List.length x)) (doc_lines d).
Proof.
  intros d D Sh. rewrite <- (lines_doc d D). apply Forall_forall. intros x Hx.
  apply lines_length in Hx. unfold short in *. lia.
Qed.
Lemma text_why : ext_total E -> forall d strict e line k, doc_ok d ->
  (Z.of_nat (List.length (doc_text d)) < 2147483648)%Z -> 51 <= byte_len (doc_text d) ->
  (parse_sdp (doc_text d) strict = Err (PLine e line k) <->
   (exists pre post, doc_lines d = pre ++ line :: post /\ k = List.length pre /\ ~ blank line /\ refused line e /\
      (forall x e', In x post -> ~ blank x -> ~ refused x e')) /\
   (strict = true -> forall x, In x (doc_lines d) -> ~ blank x -> ~ line_unsupported x)).
Proof.
  intros T d strict e line k D Sh B.
  destruct (scan_total T (doc_text d) Sh B) as (L & H & W & S0). rewrite (parse_scan _ _ _ _ _ B S0).
  rewrite (lines_doc d D) in S0. destruct (scan_last _ _ _ _ _ S0 (doc_short d D Sh)) as [F1 F2].
  pose proof (scan_unsupported _ _ _ _ _ S0) as U.
  change ((exists pre post, doc_lines d = pre ++ line :: post /\ k = List.length pre /\ ~ blank line /\ refused line e /\
      (forall x e', In x post -> ~ blank x -> ~ refused x e'))) with
    ((exists pre post, doc_lines d = pre ++ line :: post /\ k = (0 + List.length pre)%nat /\ ~ blank line /\ refused line e /\
      (forall x e', In x post -> ~ blank x -> ~ refused x e'))).
  rewrite <- F2.
  assert (Base : match last_error H with Some p => Err p | None => s <- parse_sdp_vector L ;; Ok (session_with_warnings W s) end =
    Err (PLine e line k) <-> last_error H = Some (PLine e line k)).
  { destruct (last_error H) as [p|]; [split; congruence|]. split; [|discriminate]. intro K. exfalso.
    destruct (parse_sdp_vector L) as [s|p|] eqn:V; cbn [bind] in K; try discriminate.
    apply vector_err in V. destruct V as (m & i & ->). discriminate. }
  unfold finish. destruct strict.
  - destruct W as [|w W].
    + rewrite Base. assert (G := proj1 U eq_refl). split; [intro X; split; [exact X | intros _; exact G] | intros [X _]; exact X].
    + split.
      * intro K. exfalso. inversion K; subst. pose proof (scan_warnings _ _ _ _ _ S0) as Z. inversion Z as [|? ? (e1 & l1 & k1 & Q) _].
        discriminate.
      * intros [_ X]. exfalso. assert (G := proj2 U (X eq_refl)). discriminate.
  - rewrite <- Base. destruct W; (split; [intro X; split; [exact X | discriminate] | intros [X _]; exact X]).
Qed.
End WithExt2.

(** * Proofs: masked values can be printed and parsed (C51) *)
From Coq Require Import List NArith ZArith Lia Bool Ascii String.
From Coq Require Import ZifyBool ZifyNat ZifyN.
From Verif Require Import Str Num Net Types Ext Show Address AttrParse Media Session Anon.
From Verif Require Import SpecApi SpecDoc SpecVal SpecItems SpecPrint SpecAnon SpecMask.
From Verif Require Import StrLemmas NumLemmas PAnon PAnon2 PAnon3 PAnon4 PPrint3 PPrint9 PPrint10.
Import ListNotations.
Open Scope N_scope.
Open Scope list_scope.
Notation fields := SpecAnon.fields.

Lemma after_snoc : forall h v, after anon_new (h ++ [v]) = snd (mask_val v (after anon_new h)).
Proof. intros h v. unfold after. rewrite fold_left_app. reflexivity. Qed.
Lemma distinct_incl : forall k l l', incl l l' -> distinct k l <= distinct k l'.
Proof.
  intros k l l' I. rewrite <- !first_seen_distinct.
  assert (K : (List.length (first_seen k l) <= List.length (first_seen k l'))%nat).
  { apply NoDup_incl_length; [apply first_seen_NoDup|]. intros f H. rewrite first_seen_In in *. destruct H. split; auto. }
  unfold len. lia.
Qed.
Lemma digit_solid : forall c, 48 <= c <= 57 -> is_ws c = false.
Proof.
  intros c H. assert (K : forallb (fun k => negb (is_ws (N.of_nat k))) (seq 48 10) = true) by reflexivity.
  rewrite forallb_forall in K. specialize (K (N.to_nat c)). rewrite in_seq, N2Nat.id in K. specialize (K ltac:(lia)).
  now apply negb_true_iff in K.
Qed.
Lemma numbered_word : forall p n s, p <> [] -> forallb (fun c => negb (is_ws c)) p = true -> numbered p n s -> word s.
Proof.
  intros p n s Np P (ds & -> & D & _). split; [destruct p; [congruence|discriminate]|].
  apply Forall_app. split.
  - apply Forall_forall. intros c H. rewrite forallb_forall in P. apply negb_true_iff, P, H.
  - apply Forall_forall. intros c H. rewrite Forall_forall in D. apply digit_solid, D, H.
Qed.
Lemma word_no_lf : forall t, word t -> ~ In 10 t.
Proof. intros t (_ & W) H. rewrite Forall_forall in W. specialize (W _ H). discriminate. Qed.
Lemma word_solid : forall t, word t -> starts_solid t /\ ends_solid t.
Proof.
  intros t (N1 & W). split.
  - destruct t as [|c x]; [congruence|]. inversion W; subst. exists c, x. split; auto.
  - destruct (exists_last N1) as (x & c & ->). exists c, x. split; [reflexivity|]. apply Forall_app in W. destruct W as (_ & W). now inversion W.
Qed.

Section WithExt.
Context {E : Ext}.

Definition field_good (f : field) : Prop :=
  match f with
  | FHost d => domain d
  | FIp i => ip_range i
  | FPort p => p <= 65535
  | FOriginUser t | FIcePwd t | FIceUser t | FCname t => word t
  | FFp _ => False
  end.
Lemma code_good : forall k n g, masked_names_are_domains -> (1 <= n)%nat ->
  (k = KPort -> N.of_nat n <= 65535) -> k <> KFp ->
  is_code k (N.of_nat n) g -> field_good g.
Proof.
  intros k n g D N1 P F C. destruct k, g as [h|[i|i]|p|u|u|u|b|c]; cbn [is_code] in C; try contradiction; cbn [field_good ip_range].
  - exact (D _ _ C).
  - subst. unfold u32. pose proof (N.mod_lt (N.of_nat n) (2 ^ 32) ltac:(discriminate)). lia.
  - subst. unfold u128. pose proof (N.mod_lt (N.of_nat n) (2 ^ 128) ltac:(discriminate)).
    change (2 ^ 128) with 340282366920938463463374607431768211456 in *. lia.
  - subst. specialize (P eq_refl). rewrite N.mod_small; [exact P|]. change (2 ^ 32) with 4294967296. lia.
  - refine (numbered_word _ _ _ _ _ C); [discriminate|reflexivity].
  - refine (numbered_word _ _ _ _ _ C); [discriminate|reflexivity].
  - refine (numbered_word _ _ _ _ _ C); [discriminate|reflexivity].
  - refine (numbered_word _ _ _ _ _ C); [discriminate|reflexivity].
Qed.
Lemma val_of_inj : forall f g, val_of f = val_of g -> f = g.
Proof. intros f g. destruct f, g; cbn [val_of]; intro H; try discriminate; congruence. Qed.
Lemma masked_good : forall h v, masked_names_are_domains -> ports_fit (flat_map fields (h ++ [v])) ->
  no_fingerprint (fields v) -> Forall field_good (fields (fst (mask_val v (after anon_new h)))).
Proof.
  intros h v D P F. pose proof (masking_complete (after anon_new h) v []) as M. cbn [after fold_left] in M.
  change (fold_left _ [] ?a) with a in M. rewrite <- after_snoc in M.
  assert (I : incl (fields v) (flat_map fields (h ++ [v]))).
  { intros f Hf. apply in_flat_map. exists v. split; [apply in_or_app; right; left; reflexivity|exact Hf]. }
  unfold no_fingerprint in F. rewrite Forall_forall in F. revert I F.
  induction M as [|f g l l' H M IH]; intros I F; constructor.
  - assert (If : In f (flat_map fields (h ++ [v]))) by (apply I; left; reflexivity).
    destruct (nth_distinct_ex f (flat_map fields (h ++ [v]) ++ [f])) as (n & Nn); [apply in_or_app; left; exact If|].
    destruct (mask_exact (h ++ [v]) f n Nn) as (g' & G1 & G2). rewrite H in G1. apply val_of_inj in G1. subst g'.
    refine (code_good (kind_of f) n g D _ _ _ G2).
    + destruct Nn as (N1 & _). exact N1.
    + intro K. destruct Nn as (N1 & N2). rewrite first_seen_again in N2 by exact If.
      assert (n - 1 < List.length (first_seen (kind_of f) (flat_map fields (h ++ [v]))))%nat.
      { apply nth_error_Some. rewrite N2. discriminate. }
      unfold ports_fit in P. rewrite <- K, <- first_seen_distinct in P. unfold len in P. lia.
    + intro K. apply (F f); [left; reflexivity|]. unfold is_fingerprint. destruct f as [|[|]| | | | | |]; try discriminate K. eauto.
  - apply IH; [intros x Hx; apply I; right; exact Hx | intros x Hx; apply F; right; exact Hx].
Qed.

(** ** Values that only differ in sensitive fields *)
Definition item_good (P : Prop) (ty : sdp_type) : Prop := item_wf ty /\ (P -> no_line_feed ty) /\ ~ item_lossy ty.
Definition sensitive (x : attr) : Prop :=
  match x with
  | ACandidate _ | AFingerprint _ | AIcePwd _ | AIceUfrag _ | ARemoteCandidate _ | ASsrc _ => True
  | _ => False
  end.
Lemma ren_cases : forall x x', ren_attr blank x' = ren_attr blank x ->
  x' = x \/ (sensitive x /\ sensitive x').
Proof.
  intros x x' H. assert (K : sensitive x \/ ren_attr blank x = x) by (destruct x; cbn [sensitive ren_attr]; auto).
  assert (K' : sensitive x' \/ ren_attr blank x' = x') by (destruct x'; cbn [sensitive ren_attr]; auto).
  destruct K as [K|K], K' as [K'|K'].
  - right. split; assumption.
  - rewrite K' in H. destruct x; cbn [sensitive] in K; try contradiction; destruct x'; try discriminate H; cbn [sensitive]; auto.
  - rewrite K in H. destruct x'; cbn [sensitive] in K'; try contradiction; destruct x; try discriminate H; cbn [sensitive]; auto.
  - left. congruence.
Qed.

Context (X : ext_ok E).
Lemma domain_no_lf : forall d, domain d -> ~ In 10 d.
Proof.
  intros d D H. destruct (host_domain_chars E X _ _ D) as (_ & C). rewrite forallb_forall in C. specialize (C _ H). discriminate.
Qed.
Lemma address_good : forall x, Forall field_good (address_fields x) ->
  address_range x /\ address_wf x /\ Forall (fun t => ~ In 10 t) (address_texts x).
Proof.
  intros x F. destruct x as [d|i]; cbn [address_fields] in F; inversion F as [|? ? G]; subst; cbn [field_good] in G; cbn.
  - split; [exact I|]. split; [exact G|]. constructor; [exact (domain_no_lf _ G)|constructor].
  - split; [exact G|]. split; [exact I|constructor].
Qed.
Lemma typed_good : forall x, Forall field_good (typed_fields x) ->
  typed_range x /\ typed_wf x /\ Forall (fun t => ~ In 10 t) (typed_texts x).
Proof.
  intros x F. destruct x as [t d|i]; cbn [typed_fields] in F; inversion F as [|? ? G]; subst; cbn [field_good] in G; cbn.
  - split; [exact I|]. split; [exact G|]. constructor; [exact (domain_no_lf _ G)|constructor].
  - split; [exact G|]. split; [exact I|constructor].
Qed.
Lemma candidate_same : forall Q c c', ren_candidate blank c' = ren_candidate blank c ->
  Forall field_good (candidate_fields c') ->
  item_good Q (TyAttribute (ACandidate c)) -> item_good Q (TyAttribute (ACandidate c')).
Proof.
  intros Q c c' H F ((R & W) & L & _). cbn [item_range attr_range] in R. cbn [attr_wf] in W.
  unfold no_line_feed in L. cbn [item_texts attr_texts] in L.
  unfold ren_candidate in H. injection H as E1 E2 E3 E4 E5 E6 E7 E8 E9 E10 E11 E12 E13.
  unfold candidate_fields in F. apply Forall_app in F. destruct F as (Fa & F). apply Forall_app in F. destruct F as (Fp & F).
  apply Forall_app in F. destruct F as (Fra & Frp).
  destruct (address_good _ Fa) as (A1 & A2 & A3). inversion Fp as [|? ? P _]; subst. cbn [field_good] in P.
  unfold candidate_range in R. destruct R as (R1 & R2 & _ & _ & R5 & R6 & _).
  destruct W as (W1 & _ & _ & W4 & W5).
  split; [|split].
  - split.
    + cbn [item_range attr_range]. unfold candidate_range. rewrite E2, E4, E10, E12.
      split; [exact R1|]. split; [exact R2|]. split; [exact P|]. split.
      { destruct (rport c'); cbn [option_fields] in Frp; [|exact I]. now inversion Frp. }
      split; [exact R5|]. split; [exact R6|]. split; [exact A1|].
      destruct (raddr c'); [|exact I]. exact (proj1 (address_good _ Fra)).
    + cbn [attr_wf]. rewrite E1, E11, E13. split; [exact W1|]. split; [exact A2|]. split.
      { destruct (raddr c'); [|exact I]. exact (proj1 (proj2 (address_good _ Fra))). }
      split; assumption.
  - intro q. specialize (L q). inversion L as [|? ? L1 L']; subst.
    apply Forall_app in L'. destruct L' as (_ & L'). apply Forall_app in L'. destruct L' as (_ & L').
    unfold no_line_feed. cbn [item_texts attr_texts]. constructor; [rewrite E1; exact L1|].
    apply Forall_app. split; [exact A3|]. apply Forall_app. split; [|rewrite E11, E13; exact L'].
    destruct (raddr c'); cbn [of_option flat_map]; [|constructor]. rewrite app_nil_r. exact (proj2 (proj2 (address_good _ Fra))).
  - exact (fun f => f).
Qed.
Lemma ssrc_same : forall Q s s', ren_ssrc blank s' = ren_ssrc blank s ->
  Forall field_good (ssrc_fields s') ->
  item_good Q (TyAttribute (ASsrc s)) -> item_good Q (TyAttribute (ASsrc s')).
Proof.
  intros Q s s' H F ((R & W) & L & _). cbn [item_range attr_range] in R. cbn [attr_wf] in W.
  unfold no_line_feed in L. cbn [item_texts attr_texts] in L. unfold ren_ssrc in H. injection H as E1 E2 E3.
  unfold ssrc_fields in F. unfold ssrc_texts in L. unfold ssrc_wf in W.
  destruct s as [id a v], s' as [id' a' v']. cbn [ssrc_id ssrc_attribute ssrc_value] in *. subst id' a'.
  assert (K : v' = v \/ exists x w w', a = Some x /\ v = Some w /\ v' = Some w' /\ word w').
  { destruct a as [x|]; [|left; exact E3]. destruct (is_cname x); [|left; exact E3].
    destruct v as [w|], v' as [w'|]; cbn [option_map] in E3; try discriminate E3; [|left; reflexivity].
    right. exists x, w, w'. inversion F; subst. auto. }
  destruct K as [->|(x & w & w' & -> & -> & -> & G)].
  - split; [split; assumption|]. split; [exact L|exact (fun f => f)].
  - split; [|split].
    + split; [exact R|]. cbn [attr_wf]. unfold ssrc_wf. cbn [ssrc_attribute ssrc_value].
      destruct W as (W1 & _). split; [exact W1|]. right. exact (proj2 (word_solid _ G)).
    + intro q. specialize (L q). unfold no_line_feed. cbn [item_texts attr_texts]. unfold ssrc_texts. cbn [ssrc_attribute ssrc_value of_option app] in *.
      inversion L; subst. constructor; [assumption|]. constructor; [exact (word_no_lf _ G)|constructor].
    + exact (fun f => f).
Qed.
Lemma attr_same : forall Q x x', ren_attr blank x' = ren_attr blank x -> Forall field_good (attr_fields x') ->
  item_good Q (TyAttribute x) -> item_good Q (TyAttribute x').
Proof.
  intros Q x x' H F G. destruct (ren_cases _ _ H) as [->|(S & S')]; [exact G|].
  destruct x; cbn [sensitive] in S; try contradiction; destruct x'; cbn [sensitive] in S'; try contradiction; try discriminate H;
    cbn [ren_attr] in H; cbn [attr_fields] in F.
  - match type of H with ACandidate ?p = ACandidate ?q => assert (K : p = q) by congruence end. exact (candidate_same Q _ _ K F G).
  - inversion F as [|? ? P]; subst. destruct P.
  - inversion F as [|? ? P]; subst. cbn [field_good] in P. pose proof (word_solid _ P).
    split; [split; [exact I|assumption]|]. split; [intros _|exact (fun f => f)].
    constructor; [exact (word_no_lf _ P)|constructor].
  - inversion F as [|? ? P]; subst. cbn [field_good] in P. pose proof (word_solid _ P).
    split; [split; [exact I|assumption]|]. split; [intros _|exact (fun f => f)].
    constructor; [exact (word_no_lf _ P)|constructor].
  - unfold ren_remote in H. injection H as E1 _. destruct G as ((R & _) & _ & _).
    cbn [item_range attr_range] in R. destruct R as (R1 & _). rewrite <- E1 in R1.
    apply Forall_app in F. destruct F as (F & F'). destruct (address_good _ F) as (A1 & A2 & A3). inversion F' as [|? ? P]; subst.
    split; [split; [split; [exact R1|split; [exact P|exact A1]]|exact A2]|]. split; [intros _; exact A3|exact (fun f => f)].
  - match type of H with ASsrc ?p = ASsrc ?q => assert (K : p = q) by congruence end. exact (ssrc_same Q _ _ K F G).
Qed.
Lemma connection_same : forall Q c c', ren_connection blank c' = ren_connection blank c ->
  Forall field_good (connection_fields c') -> item_good Q (TyConnection c) -> item_good Q (TyConnection c').
Proof.
  intros Q c c' H F ((R & W) & _ & _). unfold ren_connection in H. injection H as E1 E2 E3.
  cbn [item_range] in R. unfold connection_fields in F. destruct (typed_good _ F) as (A1 & A2 & A3).
  destruct R as (_ & R2 & R3), W as (_ & W).
  split; [split; cbn [item_range]; rewrite E2, E3|].
  - split; [exact A1|]. split; assumption.
  - split; [exact A2|exact W].
  - split; [intros _; exact A3|exact (fun f => f)].
Qed.
Lemma origin_same : forall Q o o', ren_origin blank o' = ren_origin blank o ->
  Forall field_good (origin_fields o') -> item_good Q (TyOrigin o) -> item_good Q (TyOrigin o').
Proof.
  intros Q o o' H F ((R & W) & _ & _). unfold ren_origin in H. injection H as E1 E2 E3.
  cbn [item_range] in R. unfold origin_fields in F. inversion F as [|? ? U F']; subst. cbn [field_good] in U.
  destruct (typed_good _ F') as (A1 & A2 & A3). destruct R as (R1 & R2 & _).
  split; [split; cbn [item_range]; rewrite ?E1, ?E2|].
  - split; [exact R1|]. split; assumption.
  - split; [exact U|exact A2].
  - split; [intros _|exact (fun f => f)]. constructor; [exact (word_no_lf _ U)|exact A3].
Qed.

(** ** Lines *)
Lemma wf_regular : forall x, attr_wf x -> attr_regular x.
Proof.
  intros x W. destruct x; try exact I. cbn [attr_wf attr_regular] in *. unfold ssrc_wf, ssrc_regular in *. intro K. rewrite K in W.
  destruct (ssrc_value _); [contradiction|reflexivity].
Qed.
Lemma mask_item_good : forall Q h v ty ty', masked_names_are_domains ->
  line_value v = Some ty -> line_value (fst (mask_val v (after anon_new h))) = Some ty' ->
  ports_fit (flat_map fields (h ++ [v])) -> no_fingerprint (fields v) -> item_good Q ty -> item_good Q ty'.
Proof.
  intros Q h v ty ty' D V V' P F G. pose proof (masked_good h v D P F) as M.
  destruct v; cbn [line_value] in V; try discriminate V; injection V as <-.
  - assert (K : attr_regular x) by (destruct G as ((_ & W) & _); exact (wf_regular _ W)).
    pose proof (masking_keeps h (VAttr x) K) as B. cbn [mask_val] in *. destruct (mask_attr x (after anon_new h)) as (x', a').
    cbn [fst line_value] in *. injection V' as <-. cbn [SpecAnon.fields ren_val] in *. refine (attr_same Q _ _ _ M G). congruence.
  - pose proof (masking_keeps h (VConnection c) I) as B. cbn [mask_val] in *. destruct (mask_connection c (after anon_new h)) as (x', a').
    cbn [fst line_value] in *. injection V' as <-. cbn [SpecAnon.fields ren_val] in *. refine (connection_same Q _ _ _ M G). congruence.
  - pose proof (masking_keeps h (VOrigin o) I) as B. cbn [mask_val] in *. destruct (mask_origin o (after anon_new h)) as (x', a').
    cbn [fst line_value] in *. injection V' as <-. cbn [SpecAnon.fields ren_val] in *. refine (origin_same Q _ _ _ M G). congruence.
Qed.
Lemma masked_line_parses : masked_names_are_domains -> forall h v ty ty' n,
  line_value v = Some ty -> line_value (fst (mask_val v (after anon_new h))) = Some ty' ->
  ports_fit (flat_map fields (h ++ [v])) -> no_fingerprint (fields v) ->
  item_wf ty -> ~ item_lossy ty -> countable ty' (List.length (printed_line ty')) ->
  parse_sdp_line (printed_line ty') n = Ok {| l_number := n; l_type := ty'; l_text := printed_line ty' |}.
Proof.
  intros D h v ty ty' n V V' P F W L C.
  assert (G : item_good False ty') by (refine (mask_item_good False h v ty ty' D V V' P F _); split; [exact W|]; split; [intros []|exact L]).
  destruct G as (W' & _ & L'). exact (printed_line_parses X _ _ W' L' C).
Qed.

(** ** Sessions *)
Definition alike (x x' : attr) : Prop := ren_attr blank x' = ren_attr blank x.
Lemma alike_map : forall l l', map (ren_attr blank) l' = map (ren_attr blank) l -> Forall2 alike l l'.
Proof.
  induction l as [|x l IH]; intros [|x' l'] H; try discriminate H; constructor.
  - cbn [map] in H. unfold alike. congruence.
  - apply IH. cbn [map] in H. congruence.
Qed.
Lemma alike_name : forall x x', alike x x' -> sdp_name x' = sdp_name x.
Proof.
  intros x x' H. destruct (ren_cases _ _ H) as [->|(S & S')]; [reflexivity|]. unfold alike in H.
  destruct x; cbn [sensitive] in S; try contradiction; destruct x'; cbn [sensitive] in S'; try contradiction; try discriminate H; reflexivity.
Qed.
Lemma alike_names : forall l l', Forall2 alike l l' -> map sdp_name l' = map sdp_name l.
Proof. intros l l' H. induction H as [|x x' l l' H _ IH]; [reflexivity|]. cbn [map]. rewrite (alike_name _ _ H), IH. reflexivity. Qed.
Lemma attrs_same : forall Q l l', Forall2 alike l l' -> Forall field_good (flat_map attr_fields l') ->
  Forall (item_good Q) (map TyAttribute l) -> Forall (item_good Q) (map TyAttribute l').
Proof.
  intros Q l l' H. induction H as [|x x' l l' H _ IH]; intros F G; [constructor|]. cbn [flat_map map] in *.
  apply Forall_app in F. destruct F as (F & F'). inversion G; subst. constructor; [refine (attr_same Q _ _ H F _); assumption|].
  apply IH; assumption.
Qed.
Record media_alike (m m' : media) : Prop := {
  ma_line : m_media m' = m_media m;
  ma_conn : m_connection m' = m_connection m;
  ma_bw : m_bandwidth m' = m_bandwidth m;
  ma_attrs : Forall2 alike (m_attribute m) (m_attribute m');
  ma_good : Forall field_good (flat_map attr_fields (m_attribute m'))
}.
Lemma medias_alike : masked_names_are_domains -> forall l h,
  ports_fit (flat_map fields (h ++ map VMedia l)) -> no_fingerprint (flat_map (fun m => fields (VMedia m)) l) ->
  Forall (fun m => Forall attr_regular (m_attribute m)) l ->
  Forall2 media_alike l (mask_medias l (after anon_new h)).
Proof.
  intros D. induction l as [|m l IH]; intros h P F R; [constructor|]. cbn [map flat_map] in *. unfold no_fingerprint in F.
  apply Forall_app in F. destruct F as (F & F'). inversion R as [|? ? R1 R2]; subst.
  assert (P' : ports_fit (flat_map fields (h ++ [VMedia m]))).
  { unfold ports_fit in *. etransitivity; [|exact P]. apply distinct_incl. intros x Hx. apply in_flat_map in Hx.
    destruct Hx as (v & Hv & Hx). apply in_flat_map. exists v. split; [|exact Hx]. apply in_app_or in Hv. apply in_or_app.
    destruct Hv as [Hv|[->|[]]]; [left; exact Hv | right; left; reflexivity]. }
  pose proof (masked_good h (VMedia m) D P' F) as M. pose proof (masking_keeps h (VMedia m) R1) as B.
  pose proof (after_snoc h (VMedia m)) as A. cbn [mask_medias]. cbn [mask_val] in M, B, A.
  destruct (mask_media m (after anon_new h)) as (m', a') eqn:Em. cbn [fst snd] in *. subst a'. constructor.
  - cbn [ren_val] in B. injection B as B1 B2 B3 B4. split; [exact B1|exact B2|exact B3|exact (alike_map _ _ B4)|exact M].
  - apply IH; [|exact F'|exact R2]. rewrite <- app_assoc. exact P.
Qed.
Lemma alike_in : forall l l', Forall2 alike l l' -> forall x, ~ sensitive x -> (In x l' <-> In x l).
Proof.
  intros l l' H x S. induction H as [|y y' l l' H _ IH]; [reflexivity|]. cbn [In]. rewrite IH.
  destruct (ren_cases _ _ H) as [->|(S1 & S2)]; [reflexivity|]. split; (intros [->|K]; [contradiction|auto]).
Qed.
Lemma has_names : forall n l, has n l <-> In n (map sdp_name l).
Proof.
  intros n l. rewrite in_map_iff. unfold has. split; intros (a & H1 & H2); exists a; auto.
Qed.
Lemma media_rules_alike : forall m m', media_alike m m' -> media_rules m -> media_rules m'.
Proof.
  intros m m' A R. destruct A as [A1 A2 A3 A4 _]. pose proof (alike_names _ _ A4) as Nm. constructor.
  - rewrite !has_names, Nm. rewrite <- !has_names. exact (rule_mux _ R).
  - intros r n H. rewrite A1. apply (rule_rid _ R). revert H. apply (alike_in _ _ A4). exact (fun f => f).
  - intros before sc after_ H NH. rewrite H in A4. apply Forall2_app_inv_r in A4. destruct A4 as (b & t & Hb & Ht & Em).
    inversion Ht as [|x ? t' ? Hx Ht']; subst. destruct (ren_cases _ _ Hx) as [<-|(_ & [])].
    assert (NH' : ~ has "simulcast" b) by (rewrite has_names, <- (alike_names _ _ Hb), <- has_names; exact NH).
    destruct (rule_simulcast _ R _ _ _ Em NH') as (R1 & R2).
    assert (K : forall d id, rid_defined (m_attribute m) d id -> rid_defined (m_attribute m') d id).
    { intros d id (r & H1 & H2). exists r. split; [|exact H2]. rewrite H. rewrite Em in H1.
      revert H1. apply (alike_in (b ++ ASimulcast sc :: t')); [|exact (fun f => f)]. apply Forall2_app; assumption. }
    split; intros v i Hv Hi; apply K; [exact (R1 _ _ Hv Hi)|exact (R2 _ _ Hv Hi)].
Qed.
Lemma medias_items : forall Q l l', Forall2 media_alike l l' -> Forall (item_good Q) (flat_map media_items l) ->
  Forall (item_good Q) (flat_map media_items l').
Proof.
  intros Q l l' H. induction H as [|m m' l l' H _ IH]; intro G; [constructor|]. cbn [flat_map] in *.
  apply Forall_app in G. destruct G as (G & G'). apply Forall_app. split; [|exact (IH G')].
  destruct H as [A1 A2 A3 A4 A5]. unfold media_items in *. rewrite A1, A2, A3.
  inversion G as [|? ? G1 G2]; subst. constructor; [exact G1|]. rewrite !Forall_app in *.
  destruct G2 as (G2 & G3 & G4). split; [exact G2|]. split; [exact G3|]. exact (attrs_same Q _ _ A4 A5 G4).
Qed.

Lemma fields_of_medias : forall l, flat_map fields (map VMedia l) = flat_map (fun m => fields (VMedia m)) l.
Proof. induction l as [|m l IH]; [reflexivity|]. cbn [map flat_map]. rewrite IH. reflexivity. Qed.
Lemma masked_document_parses : masked_names_are_domains -> forall h s s' b,
  s' = mask_document s (after anon_new h) ->
  session_wf s -> structural s -> ~ session_lossy s ->
  ports_fit (flat_map fields h ++ document_fields s) -> no_fingerprint (document_fields s) ->
  51 <= byte_len (show_session s') -> (Z.of_nat (List.length (show_session s')) < 2147483648)%Z ->
  parse_sdp (show_session s') b = Ok s'.
Proof.
  intros D h s s' b Es W St L P F B Sh. unfold document_fields in *. unfold no_fingerprint in F. apply Forall_app in F.
  destruct F as (Fs & Fm). destruct W as (Wi & (Wl & Wn) & Wt & Wsn & Wmn).
  assert (G : Forall (item_good True) (session_items s)).
  { apply Forall_forall. intros ty H. rewrite Forall_forall in Wi, Wl. split; [exact (Wi _ H)|]. split; [intros _; exact (Wl _ H)|].
    intro K. apply L. apply Exists_exists. eauto. }
  unfold session_items in G. inversion G as [|? ? Gv G1]; subst. inversion G1 as [|? ? Go G2]; subst. clear G G1. rewrite !Forall_app in G2.
  destruct G2 as (Gt & Gc & Gb & Ga & Gm).
  assert (Reg : forall l, Forall (item_good True) (map TyAttribute l) -> Forall attr_regular l).
  { intros l H. rewrite Forall_map in H. eapply Forall_impl; [|exact H]. intros x ((_ & K) & _). exact (wf_regular _ K). }
  set (s0 := {| s_version := s_version s; s_origin := s_origin s; s_session := s_session s; s_connection := s_connection s;
                s_bandwidth := s_bandwidth s; s_timing := s_timing s; s_attribute := s_attribute s; s_media := []; s_warnings := [] |}).
  assert (P1 : ports_fit (flat_map fields (h ++ [VSession s]))).
  { unfold ports_fit in *. etransitivity; [|exact P]. apply distinct_incl. rewrite flat_map_app. apply incl_app; [apply incl_appl, incl_refl|].
    apply incl_appr. cbn [flat_map]. rewrite app_nil_r. apply incl_appl, incl_refl. }
  assert (P2 : ports_fit (flat_map fields ((h ++ [VSession s]) ++ map VMedia (s_media s)))).
  { unfold ports_fit in *. etransitivity; [|exact P]. apply distinct_incl. rewrite !flat_map_app. cbn [flat_map]. rewrite app_nil_r, <- app_assoc.
    rewrite fields_of_medias. apply incl_refl. }
  pose proof (masked_good h (VSession s) D P1 Fs) as M.
  assert (R0 : val_regular (VSession s0)) by (split; [exact (Reg _ Ga)|split; reflexivity]).
  pose proof (masking_keeps h (VSession s0) R0) as K.
  change (mask_val (VSession s0) (after anon_new h)) with (mask_val (VSession s) (after anon_new h)) in K.
  pose proof (medias_alike D (s_media s) (h ++ [VSession s]) P2 Fm) as Ms.
  rewrite after_snoc in Ms. unfold mask_document in *. cbn [mask_val] in M, K, Ms.
  destruct (mask_session s (after anon_new h)) as (t, a'). cbn [fst snd] in *.
  cbn [ren_val s0 s_version s_origin s_session s_connection s_bandwidth s_timing s_attribute s_media s_warnings map] in K.
  match type of K with VSession ?p = VSession ?q => assert (K0 : p = q) by congruence end. clear K.
  pose proof (f_equal s_version K0) as E1. pose proof (f_equal s_origin K0) as E2. pose proof (f_equal s_session K0) as E3.
  pose proof (f_equal s_connection K0) as E4. pose proof (f_equal s_bandwidth K0) as E5. pose proof (f_equal s_timing K0) as E6.
  pose proof (f_equal s_attribute K0) as E7. pose proof (f_equal s_warnings K0) as E8. clear K0.
  cbn [s_version s_origin s_session s_connection s_bandwidth s_timing s_attribute s_warnings] in E1, E2, E3, E4, E5, E6, E7, E8.
  assert (Hm : Forall (fun m => Forall attr_regular (m_attribute m)) (s_media s)).
  { apply Forall_forall. intros m Hm. apply Reg. rewrite Forall_forall in Gm. apply Forall_forall. intros ty Hty. apply Gm.
    apply in_flat_map. exists m. split; [exact Hm|]. unfold media_items. right. apply in_or_app. right. apply in_or_app. right. exact Hty. }
  specialize (Ms Hm). clear Hm. set (ms := mask_medias (s_media s) a') in *.
  cbn [SpecAnon.fields] in M. rewrite !Forall_app in M. destruct M as (Mo & Mc & Ma).
  apply alike_map in E7.
  assert (Go' : item_good True (TyOrigin (s_origin t))) by exact (origin_same True _ _ E2 Mo Go).
  assert (Gc' : Forall (item_good True) (map TyConnection (of_option (s_connection t)))).
  { destruct (s_connection t) as [c'|], (s_connection s) as [c|]; try discriminate E4; cbn [of_option map option_fields option_map] in *; [|constructor].
    inversion Gc; subst. constructor; [|constructor]. refine (connection_same True c c' _ Mc _); [congruence|assumption]. }
  assert (Ga' := attrs_same True _ _ E7 Ma Ga). assert (Gm' := medias_items True _ _ Ms Gm).
  match goal with |- parse_sdp (show_session ?x) b = _ => set (s' := x) in * end.
  assert (G' : Forall (item_good True) (session_items s')).
  { unfold session_items, s'. cbn [s_version s_origin s_timing s_connection s_bandwidth s_attribute s_media]. rewrite E1, E6, E5.
    constructor; [exact Gv|]. constructor; [exact Go'|]. rewrite !Forall_app. split; [exact Gt|]. split; [exact Gc'|].
    split; [exact Gb|]. split; [exact Ga'|exact Gm']. }
  assert (Ews : with_warnings s' [] = s') by (unfold with_warnings, s'; cbn; rewrite E8; reflexivity).
  rewrite <- Ews at 2. apply (printed_session_parses X); [| | |exact B|exact Sh].
  - split; [eapply Forall_impl; [|exact G']; intros ty (K & _); exact K|].
    split; [split|].
    + eapply Forall_impl; [|exact G']. intros ty (_ & K & _). exact (K I).
    + unfold s'. cbn [s_session]. rewrite E3. exact Wn.
    + split; [|split]; unfold s'; cbn [s_session s_attribute s_media].
      * rewrite E3. exact Wt.
      * apply (Forall_map sdp_name (fun n => In n session_names)). rewrite (alike_names _ _ E7).
        apply Forall_map. exact Wsn.
      * clear -Ms Wmn. induction Ms as [|m m' l l' H _ IH]; [constructor|]. inversion Wmn; subst. constructor; [|apply IH; assumption].
        apply (Forall_map sdp_name (fun n => In n media_names)). rewrite (alike_names _ _ (ma_attrs _ _ H)). apply Forall_map. assumption.
  - constructor; unfold s'; cbn [s_timing s_connection s_attribute s_media].
    + rewrite E6. exact (rule_timing _ St).
    + destruct (rule_connection _ St) as [(c & K)|K].
      * left. rewrite K in E4. destruct (s_connection t) as [c'|]; [exists c'; reflexivity|discriminate E4].
      * right. clear -Ms K. induction Ms as [|m m' l l' H _ IH]; [constructor|]. inversion K; subst. constructor; [|apply IH; assumption].
        rewrite (ma_conn _ _ H). assumption.
    + intros (K1 & K2). apply (rule_extmap _ St). split.
      * rewrite has_names in *. rewrite <- (alike_names _ _ E7). exact K1.
      * clear -Ms K2. induction Ms as [|m m' l l' H _ IH]; [inversion K2|]. inversion K2; subst; [left|right; apply IH; assumption].
        rewrite has_names in *. rewrite <- (alike_names _ _ (ma_attrs _ _ H)). assumption.
    + pose proof (rule_media _ St) as K. clear -Ms K. induction Ms as [|m m' l l' H _ IH]; [constructor|]. inversion K; subst.
      constructor; [|apply IH; assumption]. apply (media_rules_alike _ _ H). assumption.
  - intro K. apply Exists_exists in K. destruct K as (ty & H1 & H2). rewrite Forall_forall in G'. apply (G' _ H1). exact H2.
Qed.

Lemma masked_session_parses : masked_names_are_domains -> forall h s s' b,
  s' = fst (mask_session s (after anon_new h)) ->
  session_wf s -> structural s -> ~ Exists attr_lossy (s_attribute s) ->
  ports_fit (flat_map fields (h ++ [VSession s])) -> no_fingerprint (fields (VSession s)) ->
  51 <= byte_len (show_session s') -> (Z.of_nat (List.length (show_session s')) < 2147483648)%Z ->
  parse_sdp (show_session s') b = Ok s'.
Proof.
  intros D h s s' b Es (Wi & (Wl & Wn) & Wt & Wsn & Wmn) St L P F.
  set (s0 := {| s_version := s_version s; s_origin := s_origin s; s_session := s_session s; s_connection := s_connection s;
                s_bandwidth := s_bandwidth s; s_timing := s_timing s; s_attribute := s_attribute s; s_media := []; s_warnings := [] |}).
  assert (In0 : incl (session_items s0) (session_items s)).
  { unfold session_items, s0. cbn [s_version s_origin s_timing s_connection s_bandwidth s_attribute s_media flat_map].
    intros ty H. rewrite !app_comm_cons, !app_assoc in *. apply in_or_app. left. rewrite app_nil_r in H. exact H. }
  refine (masked_document_parses D h s0 s' b _ _ _ _ _ _).
  - rewrite Es. unfold mask_document. change (mask_session s0 (after anon_new h)) with (mask_session s (after anon_new h)).
    unfold mask_session. destruct (mask_origin _ _) as (o1 & a1). destruct (mask_origin _ _) as (o2 & a2).
    destruct (match s_connection s with Some _ => _ | None => _ end) as (c & a3). destruct (mask_attrs _ _) as (l & a4). reflexivity.
  - split; [exact (incl_Forall In0 Wi)|]. split; [split; [exact (incl_Forall In0 Wl)|exact Wn]|].
    split; [exact Wt|]. split; [exact Wsn|constructor].
  - constructor; [exact (rule_timing _ St)|right; constructor| |constructor]. intros (_ & K). inversion K.
  - intro K. apply L. unfold session_lossy in K. apply Exists_exists in K. destruct K as (ty & H & K).
    destruct ty; try contradiction. apply Exists_exists. exists a. split; [|exact K].
    unfold session_items, s0 in H. cbn [s_version s_origin s_timing s_connection s_bandwidth s_attribute s_media flat_map] in H.
    destruct H as [H|[H|H]]; try discriminate H. rewrite app_nil_r in H. rewrite !in_app_iff, !in_map_iff in H.
    destruct H as [(? & ? & _)|[(? & ? & _)|[(? & ? & _)|(y & Ey & Hy)]]]; try discriminate. injection Ey as <-. exact Hy.
  - unfold ports_fit in *. etransitivity; [|exact P]. apply distinct_incl. rewrite flat_map_app. unfold document_fields.
    cbn [flat_map s_media s0]. apply incl_refl.
  - unfold document_fields. cbn [s_media s0 flat_map]. rewrite app_nil_r. exact F.
Qed.

End WithExt.

(** ** What cannot be parsed *)
Section Refuted.
Context {E : Ext}.
Definition byte_lines : list str :=
  flat_map (fun h => map (fun k => printed_line (TyAttribute (AFingerprint
    {| fp_hash := h; fp_bytes := [0; 0; 0; 0; 0; 0; 0; N.of_nat k] |}))) (seq 0 256)) [Sha1; Sha224; Sha256; Sha384; Sha512].
Lemma fingerprints_rejected : forall n,
  forallb (fun l => match parse_sdp_line l n with Err _ => true | _ => false end) byte_lines = true.
Proof. intro n. vm_compute. reflexivity. Qed.
Lemma masked_fingerprint_rejected : forall h f n,
  exists e, parse_sdp_line (printed_line (TyAttribute (fst (mask_attr (AFingerprint f) (after anon_new h))))) n = Err e.
Proof.
  intros h f n. cbn [mask_attr]. unfold mask_fingerprint.
  destruct (nth_distinct_ex (FFp (fp_bytes f)) (flat_map fields h ++ [FFp (fp_bytes f)])) as (k & K); [apply in_or_app; right; left; reflexivity|].
  apply mask_exact in K. destruct K as (g & G1 & G2). cbn [val_of mask_val kind_of] in G1, G2.
  destruct (mask_cert_finger_print (fp_bytes f) (after anon_new h)) as (b & a'). cbn [fst] in *.
  destruct g; cbn [is_code] in G2; try contradiction. cbn [val_of] in G1. injection G1 as ->. subst b0.
  pose proof (fingerprints_rejected n) as R. rewrite forallb_forall in R.
  match goal with |- exists e, parse_sdp_line ?l n = _ => assert (Hin : In l byte_lines); [|specialize (R l); destruct (parse_sdp_line l n) as [x|e|]] end.
  - apply in_flat_map. exists (fp_hash f). split; [destruct (fp_hash f); cbn; tauto|].
    apply in_map_iff. exists (N.to_nat (N.of_nat k mod 2 ^ 8)). rewrite N2Nat.id. split; [reflexivity|]. apply in_seq.
    pose proof (N.mod_lt (N.of_nat k) (2 ^ 8) ltac:(discriminate)). change (2 ^ 8) with 256 in *. lia.
  - specialize (R Hin). discriminate.
  - eauto.
  - specialize (R Hin). discriminate.
Qed.
End Refuted.

(** 65535 other ports *)
Definition many_ports (m : nat) : list aval := map (fun k => VPort (N.of_nat k)) (seq 0 m).
Lemma after_ports : forall m, N.of_nat m <= 70000 -> exists ports,
  after anon_new (many_ports m) = anon_set_ports ports (N.of_nat m) anon_new /\
  forall p, N.of_nat m <= p -> lookup N.eqb p ports = None.
Proof.
  induction m as [|m IH]; intro B.
  - exists []. split; [reflexivity|]. reflexivity.
  - destruct IH as (ports & IH1 & IH2); [lia|]. unfold many_ports in *. rewrite seq_S, map_app. cbn [map].
    rewrite after_snoc, IH1, Nat.add_0_l. cbn [mask_val]. unfold mask_port. 
    change (an_ports (anon_set_ports ports (N.of_nat m) anon_new)) with ports. rewrite IH2 by lia.
    exists ((N.of_nat m, N.of_nat (S m)) :: ports). split.
    + cbn [snd]. change (an_port_inc (anon_set_ports ports (N.of_nat m) anon_new)) with (N.of_nat m).
      assert (Ew : wrap_inc two32 (N.of_nat m) = N.of_nat (S m)).
      { unfold wrap_inc. rewrite N.mod_small; [lia|]. unfold two32. lia. }
      rewrite Ew. reflexivity.
    + intros p Hp. cbn [lookup]. destruct (N.eqb_spec (N.of_nat m) p); [lia|]. destruct (N.eqb_spec p (N.of_nat m)); [lia|]. apply IH2. lia.
Qed.

Section Ports.
Context {E : Ext}.
Definition one_candidate (p : N) : attr :=
  ARemoteCandidate {| rc_component := 1; rc_address := Ip (V6 1); rc_port := p |}.
Lemma masked_port_rejected : forall n,
  item_wf (TyAttribute (one_candidate 65535)) /\ ~ item_lossy (TyAttribute (one_candidate 65535)) /\
  fst (mask_attr (one_candidate 65535) (after anon_new (many_ports (N.to_nat 65535)))) = one_candidate 65536 /\
  exists e, parse_sdp_line (printed_line (TyAttribute (one_candidate 65536))) n = Err e.
Proof.
  intro n. split; [|split; [|split]].
  - split; [|exact I]. cbn [item_range attr_range one_candidate rc_component rc_port rc_address address_range ip_range]. unfold u32, u128. lia.
  - exact (fun f => f).
  - destruct (after_ports (N.to_nat 65535)) as (ports & A & L); [rewrite N2Nat.id; discriminate|]. rewrite A.
    rewrite N2Nat.id in *. unfold one_candidate. cbn [mask_attr]. unfold mask_remote_candidate.
    cbn [rc_address rc_port rc_component mask_address]. unfold mask_ip. cbn [an_ips anon_set_ports anon_new lookup].
    unfold mask_port, anon_set_ips. cbn [an_ports an_port_inc anon_set_ports]. rewrite L by reflexivity. reflexivity.
  - vm_compute. eexists. reflexivity.
Qed.
End Ports.

(** * Masked documents with fingerprints cannot be read (C84) *)
From Coq Require Import List Arith NArith ZArith Lia Bool Ascii String.
From Coq Require Import ZifyBool ZifyNat ZifyN.
From Verif Require Import Str Num Net Types Ext Show Address AttrParse Media Session Anon SpecApi SpecDoc SpecVal SpecItems
  SpecPrint SpecAnon SpecMask.
From Verif Require Import StrLemmas NumLemmas PDoc2 PPrint PAnon PAnon2 PAnon3 PAnon4 PPrint10 PMask PRfc27.
Import ListNotations.
Open Scope N_scope.
Open Scope list_scope.

(** ** Lines of a text *)
Lemma lines_within : forall n a x y, (List.length a <= n)%nat -> no_lf x -> In x (lines (a ++ c_lf :: x ++ crlf ++ y)).
Proof.
  induction n as [|n IH]; intros a x y L X.
  - destruct a; [|cbn in L; lia]. rewrite lines_lf by reflexivity. right. rewrite lines_crlf by exact X. left. reflexivity.
  - destruct (split_once c_lf a) as [[p q]|] eqn:S.
    + apply split_once_some in S. destruct S as [-> N]. rewrite <- app_assoc. cbn [app]. rewrite lines_lf by exact N.
      right. apply IH; [|exact X]. rewrite app_length in L. cbn [List.length] in L. lia.
    + apply split_once_none_inv in S. rewrite lines_lf by exact S. right. rewrite lines_crlf by exact X. left. reflexivity.
Qed.
Lemma crlf_lines_app : forall a b, crlf_lines (a ++ b) = crlf_lines a ++ crlf_lines b.
Proof. intros. apply flat_map_app. Qed.
Lemma crlf_lines_end : forall l x, exists a, crlf_lines (x :: l) = a ++ [c_lf].
Proof.
  intros l x. destruct (exists_last (l := x :: l)) as (l' & z & ->); [discriminate|].
  rewrite crlf_lines_app. exists (crlf_lines l' ++ z ++ [13]). unfold crlf_lines at 2. cbn [flat_map].
  rewrite app_nil_r, <- !app_assoc. reflexivity.
Qed.
Lemma lines_of_printed : forall v l x, no_lf x -> In x l -> In x (lines (crlf_lines (v :: l))).
Proof.
  intros v l x X I. apply in_split in I. destruct I as (a & b & ->).
  change (v :: a ++ x :: b) with ((v :: a) ++ [x] ++ b). rewrite !crlf_lines_app.
  destruct (crlf_lines_end a v) as (p & ->). unfold crlf_lines at 1. cbn [flat_map]. rewrite app_nil_r, <- !app_assoc. cbn [app].
  exact (lines_within _ p x _ (le_n _) X).
Qed.

Section WithExt.
Context {E : Ext}.
(** ** What the lines of a parsed text are *)
Lemma reads_each : forall n ls ts ws, Reads n ls ts ws -> forall x, In x ls ->
  SpecDoc.blank x \/ exists k, (exists l, parse_sdp_line x k = Ok l) \/ exists e, parse_sdp_line x k = Err (PUnsupported e x k).
Proof.
  induction 1; intros y Y; [destruct Y| | |]; (destruct Y as [<-|Y]; [|exact (IHReads y Y)]); eauto.
Qed.

(** ** The line of a masked fingerprint *)
Lemma fingerprints_unread : forall n,
  forallb (fun l => match parse_sdp_line l n with Err (PLine _ _ _) => true | _ => false end) byte_lines = true.
Proof. intro n. vm_compute. reflexivity. Qed.
Lemma fingerprints_one_line : forallb (fun l => negb (contains c_lf l) && negb (forallb is_ws l)) byte_lines = true.
Proof. vm_compute. reflexivity. Qed.
Lemma masked_fingerprint_bytes : forall h f, In (printed_line (TyAttribute (fst (mask_attr (AFingerprint f) (after anon_new h))))) byte_lines.
Proof.
  intros h f. cbn [mask_attr]. unfold mask_fingerprint.
  destruct (nth_distinct_ex (FFp (fp_bytes f)) (flat_map fields h ++ [FFp (fp_bytes f)])) as (k & K); [apply in_or_app; right; left; reflexivity|].
  apply mask_exact in K. destruct K as (g & G1 & G2). cbn [val_of mask_val kind_of] in G1, G2.
  destruct (mask_cert_finger_print (fp_bytes f) (after anon_new h)) as (b & a'). cbn [fst] in *.
  destruct g; cbn [is_code] in G2; try contradiction. cbn [val_of] in G1. injection G1 as ->. subst b0.
  apply in_flat_map. exists (fp_hash f). split; [destruct (fp_hash f); cbn; tauto|].
  apply in_map_iff. exists (N.to_nat (N.of_nat k mod 2 ^ 8)). rewrite N2Nat.id. split; [reflexivity|]. apply in_seq.
  pose proof (N.mod_lt (N.of_nat k) (2 ^ 8) ltac:(discriminate)). change (2 ^ 8) with 256 in *. lia.
Qed.

(** ** Texts with such a line *)
Lemma unread : forall s x b r, In x byte_lines -> In x (tl (session_lines s)) -> parse_sdp (show_session s) b <> Ok r.
Proof.
  intros s x b r B I P. rewrite session_is_lines in P. apply document in P. destruct P as (_ & ts & ws & R & _).
  pose proof fingerprints_one_line as O. rewrite forallb_forall in O. specialize (O x B).
  apply andb_true_iff in O. destruct O as (O1 & O2). apply negb_true_iff in O1, O2.
  destruct (reads_each _ _ _ _ R x) as [K|(k & [(l & K)|(e & K)])].
  - exact (lines_of_printed _ _ x O1 I).
  - unfold SpecDoc.blank in K.
    assert (forallb is_ws x = true) by (apply forallb_forall, Forall_forall; exact K). congruence.
  - pose proof (fingerprints_unread k) as U. rewrite forallb_forall in U. specialize (U x B). rewrite K in U. discriminate.
  - pose proof (fingerprints_unread k) as U. rewrite forallb_forall in U. specialize (U x B). rewrite K in U. discriminate.
Qed.
Lemma attrs_have : forall l h x, In x l -> exists h', In (fst (mask_attr x (after anon_new h'))) (fst (mask_attrs l (after anon_new h))).
Proof.
  induction l as [|y l IH]; intros h x I; [destruct I|]. cbn [mask_attrs].
  pose proof (after_snoc h (VAttr y)) as A. cbn [mask_val] in A. destruct (mask_attr y (after anon_new h)) as (y' & a) eqn:Q. cbn [snd] in A. subst a.
  specialize (IH (h ++ [VAttr y]) x). destruct (mask_attrs l (after anon_new (h ++ [VAttr y]))) as (ys & a). cbn [fst] in *.
  destruct I as [->|I]; [exists h; rewrite Q; left; reflexivity|]. destruct (IH I) as (h' & H). exists h'. right. exact H.
Qed.
Lemma medias_have : forall l h m, In m l -> exists h', In (fst (mask_media m (after anon_new h'))) (mask_medias l (after anon_new h)).
Proof.
  induction l as [|y l IH]; intros h x I; [destruct I|]. cbn [mask_medias].
  pose proof (after_snoc h (VMedia y)) as A. cbn [mask_val] in A. destruct (mask_media y (after anon_new h)) as (y' & a) eqn:Q. cbn [snd] in A. subst a.
  destruct I as [->|I]; [exists h; rewrite Q; left; reflexivity|]. destruct (IH (h ++ [VMedia y]) x I) as (h' & H). exists h'. right. exact H.
Qed.
Lemma attribute_printed : forall l x, In x l -> show_attr x <> [] -> In (printed_line (TyAttribute x)) (attribute_lines l).
Proof.
  intros l x I X. unfold attribute_lines. destruct l as [|y l]; [destruct I|]. set (k := y :: l) in *.
  assert (J : In (show_attr x) (filter (fun t => match t with [] => false | _ => true end) (map show_attr k))).
  { apply filter_In. split; [apply in_map, I|]. destruct (show_attr x); [contradiction|reflexivity]. }
  destruct (filter _ _) as [|z zs]; [destruct J|]. exact (in_map (app (lit "a=")) _ _ J).
Qed.
Lemma fingerprint_shown : forall f a, show_attr (fst (mask_attr (AFingerprint f) a)) <> [].
Proof. intros f a. cbn [mask_attr]. destruct (mask_fingerprint f a) as ([hash bytes] & a'). destruct hash; intro K; apply (f_equal (@hd N 0)) in K; vm_compute in K; discriminate K. Qed.
Lemma attrs_line : forall l h f, In (AFingerprint f) l ->
  exists x, In x byte_lines /\ In x (attribute_lines (fst (mask_attrs l (after anon_new h)))).
Proof.
  intros l h f I. destruct (attrs_have l h _ I) as (h' & H). eexists. split; [exact (masked_fingerprint_bytes h' f)|].
  apply attribute_printed; [exact H|apply fingerprint_shown].
Qed.
Lemma session_masked : forall s h, exists h' o c,
  mask_session s (after anon_new h) =
  ({| s_version := s_version s; s_origin := o; s_session := s_session s; s_connection := c;
      s_bandwidth := s_bandwidth s; s_timing := s_timing s; s_attribute := fst (mask_attrs (s_attribute s) (after anon_new h'));
      s_media := []; s_warnings := [] |}, after anon_new (h' ++ map VAttr (s_attribute s))).
Proof.
  intros s h. unfold mask_session.
  pose proof (after_snoc h (VOrigin (s_origin s))) as H1. cbn [mask_val] in H1.
  destruct (mask_origin (s_origin s) (after anon_new h)) as (o1 & a1). cbn [snd] in H1. subst a1.
  set (h1 := h ++ [VOrigin (s_origin s)]).
  pose proof (after_snoc h1 (VOrigin (s_origin s))) as H2. cbn [mask_val] in H2.
  destruct (mask_origin (s_origin s) (after anon_new h1)) as (o2 & a2). cbn [snd] in H2. subst a2.
  set (h2 := h1 ++ [VOrigin (s_origin s)]).
  assert (CO : exists c' h3, (match s_connection s with
      | Some c => let '(r, a) := mask_connection c (after anon_new h2) in (Some r, a)
      | None => (None, after anon_new h2) end) = (c', after anon_new h3)).
  { destruct (s_connection s) as [c|]; [|eauto]. pose proof (after_snoc h2 (VConnection c)) as H3. cbn [mask_val] in H3.
    destruct (mask_connection c (after anon_new h2)) as (c' & a3). cbn [snd] in H3. subst a3. eauto. }
  destruct CO as (c' & h3 & ->). pose proof (attrs_after (s_attribute s) h3) as H4. exists h3, o2, c'.
  destruct (mask_attrs (s_attribute s) (after anon_new h3)) as (l & a). cbn [fst snd] in *. subst a. reflexivity.
Qed.
Lemma masked_session_unread : forall s h f b r, In (AFingerprint f) (s_attribute s) ->
  parse_sdp (show_session (fst (mask_session s (after anon_new h)))) b <> Ok r.
Proof.
  intros s h f b r I. destruct (session_masked s h) as (h' & o & c & ->). cbn [fst].
  destruct (attrs_line _ h' f I) as (x & B & X). apply (unread _ x); [exact B|]. unfold session_lines. cbn [tl s_attribute].
  right. right. do 3 (apply in_or_app; right). apply in_or_app. left. exact X.
Qed.
Lemma masked_document_unread : forall s h f b r,
  In (AFingerprint f) (s_attribute s) \/ (exists m, In m (s_media s) /\ In (AFingerprint f) (m_attribute m)) ->
  parse_sdp (show_session (mask_document s (after anon_new h))) b <> Ok r.
Proof.
  intros s h f b r I. unfold mask_document. destruct (session_masked s h) as (h' & o & c & ->).
  destruct I as [I|(m & M & I)].
  - destruct (attrs_line _ h' f I) as (x & B & X). apply (unread _ x); [exact B|]. unfold session_lines. cbn [tl s_attribute].
    right. right. do 3 (apply in_or_app; right). apply in_or_app. left. exact X.
  - destruct (medias_have _ (h' ++ map VAttr (s_attribute s)) m M) as (h2 & H).
    destruct (attrs_line _ h2 f I) as (x & B & X). apply (unread _ x); [exact B|]. unfold session_lines. cbn [tl s_media].
    right. right. do 4 (apply in_or_app; right). apply in_flat_map. eexists. split; [exact H|].
    unfold media_lines. right. do 2 (apply in_or_app; right). unfold mask_media.
    destruct (mask_attrs (m_attribute m) (after anon_new h2)) as (l & a). exact X.
Qed.

(** ** Without fingerprints *)
Ltac other := let b := fresh in let K := fresh in intros (b & K); discriminate K.
Lemma none_app : forall l l', no_fingerprint l -> no_fingerprint l' -> no_fingerprint (l ++ l').
Proof. intros l l' H K. apply Forall_app. split; assumption. Qed.
Lemma address_none : forall x, no_fingerprint (address_fields x).
Proof. intros []; (constructor; [other|constructor]). Qed.
Lemma typed_none : forall x, no_fingerprint (typed_fields x).
Proof. intros []; (constructor; [other|constructor]). Qed.
Lemma attr_none : forall x, (forall f, x <> AFingerprint f) -> no_fingerprint (attr_fields x).
Proof.
  intros x H. destruct x; cbn [attr_fields]; try (constructor; fail); try (constructor; [other|constructor]).
  all: match goal with
       | |- no_fingerprint (candidate_fields ?c) =>
           unfold candidate_fields; apply none_app; [apply address_none|]; apply none_app; [constructor; [other|constructor]|];
           apply none_app; [destruct (raddr c); [apply address_none|constructor]|destruct (rport c); [constructor; [other|constructor]|constructor]]
       | |- no_fingerprint (ssrc_fields ?c) =>
           unfold ssrc_fields; destruct (ssrc_attribute c); [|constructor]; destruct (ssrc_value c); [|constructor];
           destruct (is_cname _); [constructor; [other|constructor]|constructor]
       | |- no_fingerprint (_ ++ _) => apply none_app; [apply address_none|constructor; [other|constructor]]
       | |- _ => destruct (H _ eq_refl)
       end.
Qed.
Lemma attrs_none : forall l, (forall f, ~ In (AFingerprint f) l) -> no_fingerprint (flat_map attr_fields l).
Proof.
  induction l as [|x l IH]; intro H; [constructor|]. cbn [flat_map]. apply none_app.
  - apply attr_none. intros f ->. apply (H f). left. reflexivity.
  - apply IH. intros f K. apply (H f). right. exact K.
Qed.
Lemma document_none : forall s, (forall f, ~ In (AFingerprint f) (s_attribute s)) ->
  (forall m f, In m (s_media s) -> ~ In (AFingerprint f) (m_attribute m)) -> no_fingerprint (document_fields s).
Proof.
  intros s H M. unfold document_fields. apply none_app.
  - cbn [SpecAnon.fields]. apply none_app; [constructor; [other|apply typed_none]|]. apply none_app; [|apply attrs_none; exact H].
    destruct (s_connection s); [apply typed_none|constructor].
  - clear H. induction (s_media s) as [|m l IH]; [constructor|]. cbn [flat_map]. apply none_app.
    + cbn [SpecAnon.fields]. apply attrs_none. intros f. apply M. left. reflexivity.
    + apply IH. intros m' f K. apply M. right. exact K.
Qed.
Lemma masked_document_exactly (X : ext_ok E) : masked_names_are_domains -> forall sdp b b' h s s',
  parse_sdp sdp b = Ok s -> ~ session_lossy s -> ports_fit (flat_map SpecAnon.fields h ++ document_fields s) ->
  s' = mask_document s (after anon_new h) ->
  51 <= byte_len (show_session s') -> (Z.of_nat (List.length (show_session s')) < 2147483648)%Z ->
  ((exists r, parse_sdp (show_session s') b' = Ok r) <->
   (forall f, ~ In (AFingerprint f) (s_attribute s)) /\ (forall m f, In m (s_media s) -> ~ In (AFingerprint f) (m_attribute m))) /\
  (forall r, parse_sdp (show_session s') b' = Ok r -> r = s').
Proof.
  intros D sdp b b' h s s' P L F Es B Z. destruct (parsed_session_wf X _ _ _ P) as (W & S).
  assert (R : (exists r, parse_sdp (show_session s') b' = Ok r) ->
    (forall f, ~ In (AFingerprint f) (s_attribute s)) /\ (forall m f, In m (s_media s) -> ~ In (AFingerprint f) (m_attribute m))).
  { intros (r & K). split; [intros f I|intros m f M I]; revert K; rewrite Es; apply (masked_document_unread s h f); eauto. }
  assert (G : (forall f, ~ In (AFingerprint f) (s_attribute s)) /\ (forall m f, In m (s_media s) -> ~ In (AFingerprint f) (m_attribute m)) ->
    parse_sdp (show_session s') b' = Ok s').
  { intros (H & M). apply (masked_document_parses X D h s); try assumption. apply document_none; assumption. }
  split; [split; [exact R|eauto]|]. intros r K. pose proof (G (R (ex_intro _ r K))) as K'. rewrite K in K'. injection K' as ->. reflexivity.
Qed.
End WithExt.

(** * Documents of lines of the RFCs are accepted (C62) *)
From Coq Require Import List Arith NArith ZArith Lia Bool Ascii String.
From Coq Require Import ZifyBool ZifyNat ZifyN.
From Verif Require Import Str Num Net Types Ext Show Address AttrParse Media Session SpecApi SpecDoc SpecVal SpecItems
  SpecPrint SpecIp SpecGrammar.
From Verif Require Import StrLemmas PVal8 PVal9 PDoc PDoc2 PDoc3.
From Verif Require Import SpecRfc PRfc PRfc7 PRfc10.
Import ListNotations.
Open Scope N_scope.
Open Scope list_scope.

Section WithExt.
Context {E : Ext}.
Hypothesis OK : ext_ok E.

Definition fits (t : str) (ty : sdp_type) : Prop := (forall k, item_name ty = k <-> of_kind [k] t) /\ line_means t ty.
Lemma of_one : forall K t, of_kind K t -> exists k, In k K /\ of_kind [k] t.
Proof. intros K t (k & r & I & M & G). exists k. split; [exact I|]. exists k, r. split; [left; reflexivity|]. split; assumption. Qed.
Lemma kind_taken : forall k t, of_kind [k] t -> taken k t.
Proof. intros k t (k' & r & [<-|[]] & M & G). exact (lines_taken OK k r t M G). Qed.
Lemma kind_fits : forall K t, of_kind K t -> forall n, exists ty,
  parse_sdp_line t n = Ok {| l_number := n; l_type := ty; l_text := t |} /\ fits t ty.
Proof.
  intros K t H n. destruct (of_one K t H) as (k & I & O). destruct (kind_taken k t O n) as (ty & P & N). exists ty. split; [exact P|].
  split; [|apply PVal8.line_fwd in P; exact (proj2 (proj2 P))]. intros k'. split; [intros <-; rewrite N; exact O|]. intros O'. destruct (kind_taken k' t O' n) as (ty' & P' & N').
  rewrite P in P'. injection P' as <-. exact N'.
Qed.
Lemma fits_in : forall K t ty, of_kind K t -> fits t ty -> In (item_name ty) K.
Proof. intros K t ty H F. destruct (of_one K t H) as (k & I & O). apply (proj1 F) in O. rewrite O. exact I. Qed.
Lemma blank_not : forall t n l, parse_sdp_line t n = Ok l -> ~ blank t.
Proof.
  intros t n l H B. apply PVal8.line_fwd in H. destruct H as (_ & _ & w1 & c & w2 & v & -> & _).
  unfold blank in B. rewrite !Forall_app in B. destruct B as (_ & _ & _ & B). inversion B as [|? ? X]. discriminate X.
Qed.
Lemma reads : forall ls, Forall (fun t => exists K, of_kind K t) ls -> forall n, exists ts, Reads n ls ts [] /\ Forall2 fits ls ts.
Proof.
  intros ls H. induction H as [|t ls (K & HK) H IH]; intros n; [exists []; split; constructor|].
  destruct (kind_fits K t HK n) as (ty & P & F). destruct (IH (S n)) as (ts & R & FS).
  exists (ty :: ts). split; [|constructor; assumption].
  change ty with (l_type {| l_number := n; l_type := ty; l_text := t |}). apply Reads_line; [exact (blank_not _ _ _ P)|exact P|exact R].
Qed.

(** What the kinds say about the types. *)
Definition member (k : string) (l : list string) : bool := existsb (String.eqb k) l.
Lemma member_iff : forall k l, member k l = true <-> In k l.
Proof.
  intros k l. unfold member. rewrite existsb_exists. split.
  - intros (x & I & Q). apply String.eqb_eq in Q. subst x. exact I.
  - intros I. exists k. split; [exact I|apply String.eqb_refl].
Qed.
Lemma name_v : forall ty, item_name ty = "v"%string -> exists x, ty = TyVersion x.
Proof. intros [a|b|c|m|o|x|t|v] H; try discriminate; [destruct a; discriminate|exists v; reflexivity]. Qed.
Lemma name_o : forall ty, item_name ty = "o"%string -> exists x, ty = TyOrigin x.
Proof. intros [a|b|c|m|o|x|t|v] H; try discriminate; [destruct a; discriminate|exists o; reflexivity]. Qed.
Lemma name_s : forall ty, item_name ty = "s"%string -> exists x, ty = TySession x.
Proof. intros [a|b|c|m|o|x|t|v] H; try discriminate; [destruct a; discriminate|exists x; reflexivity]. Qed.
Lemma name_t : forall ty, item_name ty = "t"%string -> exists x, ty = TyTiming x.
Proof. intros [a|b|c|m|o|x|t|v] H; try discriminate; [destruct a; discriminate|exists t; reflexivity]. Qed.
Lemma name_c : forall ty, item_name ty = "c"%string -> exists x, ty = TyConnection x.
Proof. intros [a|b|c|m|o|x|t|v] H; try discriminate; [destruct a; discriminate|exists c; reflexivity]. Qed.
Lemma name_m : forall ty, item_name ty = "m"%string -> exists x, ty = TyMedia x.
Proof. intros [a|b|c|m|o|x|t|v] H; try discriminate; [destruct a; discriminate|exists m; reflexivity]. Qed.
Lemma name_attribute : forall ty k, (2 <= String.length k)%nat -> item_name ty = k -> exists a, ty = TyAttribute a /\ sdp_name a = k.
Proof. intros [a|b|c|m|o|x|t|v] k L H; try (subst k; cbn in L; lia). exists a. split; [reflexivity|exact H]. Qed.
Lemma names_session : forall ty, In (item_name ty) session_kinds -> session_item ty.
Proof.
  intros ty H. apply member_iff in H. destruct ty as [a|b|c|m|o|x|t|v]; try exact I; try discriminate.
  apply member_iff. cbn [item_name] in H. destruct a; first [reflexivity|discriminate].
Qed.
Lemma names_media : forall ty, In (item_name ty) media_kinds -> media_item ty /\ connections [ty] = [].
Proof.
  intros ty H. apply member_iff in H.
  destruct ty as [a|b|c|m|o|x|t|v]; try discriminate; (split; [|reflexivity]); try exact I; try discriminate.
  cbn [item_name] in H.
  destruct a; try discriminate; first [left; apply member_iff; reflexivity|right; reflexivity].
Qed.
Lemma has_name : forall k ts, (2 <= String.length k)%nat -> (has k (attributes ts) <-> Exists (fun ty => item_name ty = k) ts).
Proof.
  intros k ts L. rewrite Exists_exists. unfold has, attributes. split.
  - intros (a & I & N). apply in_flat_map in I. destruct I as (ty & T & A). exists ty. split; [exact T|].
    destruct ty; cbn in A; try contradiction. destruct A as [->|[]]. exact N.
  - intros (ty & T & N). destruct (name_attribute ty k L N) as (a & -> & Q). exists a. split; [|exact Q].
    apply in_flat_map. exists (TyAttribute a). split; [exact T|left; reflexivity].
Qed.
Lemma fits_with : forall k ls ts, Forall2 fits ls ts -> (with_one k ls <-> Exists (fun ty => item_name ty = k) ts).
Proof.
  intros k ls ts H. unfold with_one. induction H as [|t ty ls ts F H IH]; [split; intros X; inversion X|].
  rewrite !Exists_cons, IH, <- (proj1 F k). reflexivity.
Qed.
Lemma fits_all : forall K ls ts, Forall (of_kind K) ls -> Forall2 fits ls ts -> Forall (fun ty => In (item_name ty) K) ts.
Proof.
  intros K ls ts H F. induction F as [|t ty ls ts Q F IH]; [constructor|]. inversion H as [|? ? H1 H2]; subst.
  constructor; [exact (fits_in K t ty H1 Q)|exact (IH H2)].
Qed.
Lemma f2_concat : forall (ls : list (list str)) ts, Forall2 fits (List.concat ls) ts ->
  exists tss, ts = List.concat tss /\ Forall2 (Forall2 fits) ls tss.
Proof.
  induction ls as [|l ls IH]; intros ts H.
  - inversion H; subst. exists []. split; [reflexivity|constructor].
  - cbn [List.concat] in H. apply Forall2_app_inv_l in H. destruct H as (a & b & Ha & Hb & ->).
    destruct (IH b Hb) as (tss & -> & F). exists (a :: tss). split; [reflexivity|constructor; assumption].
Qed.
Lemma connections_app : forall a b, connections (a ++ b) = connections a ++ connections b.
Proof. intros a b. apply flat_map_app. Qed.
Lemma no_connections : forall ts, Forall (fun ty => In (item_name ty) media_kinds) ts -> connections ts = [].
Proof.
  intros ts H. induction H as [|ty ts I H IH]; [reflexivity|]. change (ty :: ts) with ([ty] ++ ts). rewrite connections_app, IH, app_nil_r.
  exact (proj2 (names_media ty I)).
Qed.
Lemma connections_le : forall ts, (List.length (connections ts) <= List.length ts)%nat.
Proof. unfold connections. induction ts as [|ty ts IH]; [reflexivity|]. destruct ty; cbn [flat_map app List.length]; lia. Qed.
Lemma exists_connection : forall ts, Exists (fun ty => item_name ty = "c"%string) ts -> connections ts <> [].
Proof.
  intros ts H. apply Exists_exists in H. destruct H as (ty & I & N). apply name_c in N. destruct N as [x ->].
  intros Q. assert (X : In x (connections ts)) by (apply in_flat_map; exists (TyConnection x); split; [exact I|left; reflexivity]).
  rewrite Q in X. destruct X.
Qed.
Lemma exists_timing : forall ts, Exists (fun ty => item_name ty = "t"%string) ts -> timings ts <> [].
Proof.
  intros ts H. apply Exists_exists in H. destruct H as (ty & I & N). apply name_t in N. destruct N as [x ->].
  intros Q. assert (X : In x (timings ts)) by (apply in_flat_map; exists (TyTiming x); split; [exact I|left; reflexivity]).
  rewrite Q in X. destruct X.
Qed.
Lemma has_head : forall A (l : list A), l <> [] -> present (hd_error l).
Proof. intros A [|x l] H; [congruence|]. exists x. reflexivity. Qed.
Lemma has_last : forall A (l : list A), l <> [] -> present (last_of l).
Proof. intros A l H. unfold last_of. apply has_head. intros Q. apply H. rewrite <- (rev_involutive l), Q. reflexivity. Qed.

Lemma has_filter : forall k l, k <> "dtls-message"%string -> (has k (filter (SpecApi.not_named "dtls-message") l) <-> has k l).
Proof.
  intros k l N. unfold has. split; intros (a & I & Q); exists a; (split; [|exact Q]).
  - apply filter_In in I. tauto.
  - apply filter_In. split; [exact I|]. unfold SpecApi.not_named, named. rewrite Q. apply negb_true_iff. apply String.eqb_neq. exact N.
Qed.
Lemma f2_in : forall ls ts ty, Forall2 fits ls ts -> In ty ts -> exists t, In t ls /\ fits t ty.
Proof.
  intros ls ts ty F. induction F as [|t y ls ts Q F IH]; intros []; [subst y; exists t; split; [left; reflexivity|exact Q]|].
  destruct (IH ltac:(assumption)) as (t' & I & K). exists t'. split; [right; exact I|exact K].
Qed.
Lemma f2_in_l : forall ls ts t, Forall2 fits ls ts -> In t ls -> exists ty, In ty ts /\ fits t ty.
Proof.
  intros ls ts t F. induction F as [|t' y ls ts Q F IH]; intros []; [subst t'; exists y; split; [left; reflexivity|exact Q]|].
  destruct (IH ltac:(assumption)) as (ty & I & K). exists ty. split; [right; exact I|exact K].
Qed.
(** The text of a line with a known name that takes a value. *)
Lemma named_line : forall k t ty, fits t ty -> item_name ty = k -> member k ["rid"; "simulcast"]%string = true ->
  exists v, t = lit "a=" ++ of_string k ++ lit ":" ++ v.
Proof.
  intros k t ty F N M. apply (proj1 F) in N. destruct N as (k' & r & [<-|[]] & I & G). apply in_app_iff in I. destruct I as [I|I].
  - apply in_app_iff in I. destruct I as [I|I]; apply in_map_iff in I; destruct I as (n & Q & I).
    + injection Q as <- <-. exfalso. unfold flags in I. cbn [In] in I.
      repeat (destruct I as [<-|I]; [discriminate M|]). destruct I.
    + injection Q as <- <-. destruct n as [n rule]. cbn [fst snd] in *. change (gen (cats [Lit "a="; Lit n; Lit ":"; rule]) t) in G. pieces G.
      exists x2. cbn [List.concat]. rewrite app_nil_r. reflexivity.
  - exfalso. unfold rfc_lines in I. cbn [In] in I. repeat (destruct I as [I|I]; [injection I as <- _; discriminate M|]). destruct I.
Qed.
Lemma declares_line : forall d id t ty, declares_rid d id t -> line_means t ty ->
  exists r, ty = TyAttribute (ARid r) /\ rid_direction r = d /\ rid_id r = id.
Proof.
  intros d id t ty D M. destruct (rid_line d id t ty D M) as [r ->]. destruct (declared d id t r D M) as [Q1 Q2]. exists r. auto.
Qed.
Lemma section_typed : forall ls ts, rfc_section ls -> Forall2 fits ls ts -> exists sec : section,
  ts = section_lines sec /\ section_ok sec /\ (with_one "c" ls -> present (m_connection (section_media sec))) /\
  (has "extmap" (m_attribute (section_media sec)) -> with_one "extmap" ls) /\ media_rules (section_media sec).
Proof.
  intros ls ts (m & a & c & b & -> & Hm & Ha & Hc & Lc & Hb & MX & RR & RP) F.
  pose proof (fits_with "c" _ _ F) as WC. pose proof (fits_with "extmap" _ _ F) as WE.
  pose proof (fits_with "rtcp-mux-only" _ _ F) as WO. pose proof (fits_with "rtcp-mux" _ _ F) as WM.
  inversion F as [|? ty ? body Fm Fb Q1 Q2]; subst. assert (Nm := fits_in _ _ _ Hm Fm). destruct Nm as [Nm|[]]. symmetry in Nm.
  apply name_m in Nm. destruct Nm as [x ->].
  apply Forall2_app_inv_l in Fb. destruct Fb as (ta & r & Fa & Fr & ->). apply Forall2_app_inv_l in Fr. destruct Fr as (tc & tb & Fc & Fb & ->).
  assert (Na := fits_all _ _ _ Ha Fa). assert (Nc := fits_all _ _ _ Hc Fc). assert (Nb := fits_all _ _ _ Hb Fb).
  assert (CS : connections (ta ++ tc ++ tb) = connections tc)
    by (rewrite !connections_app, (no_connections ta Na), (no_connections tb Nb), app_nil_r; reflexivity).
  assert (MI : Forall media_item (ta ++ tc ++ tb)).
  { apply Forall_app. split; [eapply Forall_impl; [|exact Na]; intros ty H; exact (proj1 (names_media ty H))|]. apply Forall_app.
    split; [|eapply Forall_impl; [|exact Nb]; intros ty H; exact (proj1 (names_media ty H))].
    eapply Forall_impl; [|exact Nc]. intros ty [H|[]]. symmetry in H. apply name_c in H. destruct H as [y ->]. exact I. }
  assert (AT : forall at', In (TyAttribute at') (ta ++ tc ++ tb) -> exists t, In t (a ++ b) /\ fits t (TyAttribute at')).
  { intros a' H. rewrite !in_app_iff in H. rewrite Forall_forall in Nc. destruct H as [H|[H|H]].
    - destruct (f2_in _ _ _ Fa H) as (t & T & K). exists t. split; [apply in_app_iff; auto|exact K].
    - destruct (Nc _ H) as [N|[]]. destruct a'; discriminate N.
    - destruct (f2_in _ _ _ Fb H) as (t & T & K). exists t. split; [apply in_app_iff; auto|exact K]. }
  assert (TA : forall t, In t (a ++ b) -> exists ty, In ty (ta ++ tc ++ tb) /\ fits t ty).
  { intros t H. apply in_app_iff in H. destruct H as [H|H]; [destruct (f2_in_l _ _ _ Fa H) as (ty & T & K)|destruct (f2_in_l _ _ _ Fb H) as (ty & T & K)];
      exists ty; (split; [rewrite !in_app_iff; auto|exact K]). }
  assert (IA : forall at', sdp_name at' <> "dtls-message"%string ->
     (In at' (m_attribute (section_media (x, ta ++ tc ++ tb))) <-> In (TyAttribute at') (ta ++ tc ++ tb))).
  { intros a' D. cbn [section_media m_attribute snd]. rewrite filter_In. unfold attributes. rewrite in_flat_map. split.
    - intros [(ty & T & A) _]. destruct ty; cbn in A; try contradiction. destruct A as [->|[]]. exact T.
    - intros H. split; [exists (TyAttribute a'); split; [exact H|left; reflexivity]|]. unfold SpecApi.not_named, named. apply negb_true_iff, String.eqb_neq, D. }
  exists (x, ta ++ tc ++ tb). split; [reflexivity|]. split.
  { split; [exact MI|]. cbn [snd]. rewrite CS. assert (LF : List.length c = List.length tc) by (clear -Fc; induction Fc; cbn; congruence). pose proof (connections_le tc). lia. }
  split.
  { intros H. cbn [section_media m_connection snd]. apply has_head. apply exists_connection. apply WC in H.
    apply Exists_cons in H. destruct H as [H|H]; [discriminate|exact H]. }
  assert (TR : forall k, (2 <= String.length k)%nat -> k <> "dtls-message"%string ->
     (has k (m_attribute (section_media (x, ta ++ tc ++ tb))) <-> Exists (fun ty => item_name ty = k) (TyMedia x :: ta ++ tc ++ tb))).
  { intros k L D. cbn [section_media m_attribute snd]. rewrite (has_filter k _ D), (has_name k _ L), Exists_cons. split; [tauto|].
    intros [H|H]; [|exact H]. subst k. cbn in L. lia. }
  split; [intros H; apply WE; apply TR in H; [exact H|cbn; lia|discriminate]|].
  split.
  - intros H. apply TR; [cbn; lia|discriminate|]. apply WM. apply MX. apply WO. apply TR; [cbn; lia|discriminate|exact H].
  - intros r n H I. apply IA in H; [|discriminate]. destruct (AT _ H) as (t & T & K).
    destruct (named_line "rid" _ _ K eq_refl) as [v ->]; [reflexivity|].
    cbn [section_media m_media fst]. apply (payload_listed_in n m); [|exact (proj2 Fm)]. apply (RP n _ T). exact (payload_used v r n (proj2 K) I).
  - intros before sc after H _.
    assert (HI : In (ASimulcast sc) (m_attribute (section_media (x, ta ++ tc ++ tb)))) by (rewrite H; apply in_app_iff; right; left; reflexivity).
    apply IA in HI; [|discriminate]. destruct (AT _ HI) as (t & T & K). destruct (named_line "simulcast" _ _ K eq_refl) as [v ->]; [reflexivity|].
    destruct (used v sc (proj2 K)) as [U1 U2].
    assert (DF : forall d id, uses_rid d id (lit "a=simulcast:" ++ v) -> rid_defined (m_attribute (section_media (x, ta ++ tc ++ tb))) d id).
    { intros d id U. apply (RR _ _ _ T) in U. apply Exists_exists in U. destruct U as (t' & T' & D). destruct (TA _ T') as (ty & Ty & K').
      destruct (declares_line d id t' ty D (proj2 K')) as (r & -> & Q1 & Q2). exists r. split; [|auto]. apply IA; [discriminate|exact Ty]. }
    split; intros y i Y I; apply DF; [apply (U1 y)|apply (U2 y)]; assumption.
Qed.
Lemma sections_typed : forall secs tss, Forall rfc_section secs -> Forall2 (Forall2 fits) secs tss -> exists l : list section,
  List.concat tss = flat_map section_lines l /\ Forall section_ok l /\ List.length l = List.length secs /\
  (Forall (with_one "c") secs -> Forall (fun m => present (m_connection m)) (map section_media l)) /\
  (Exists (fun m => has "extmap" (m_attribute m)) (map section_media l) -> Exists (with_one "extmap") secs) /\
  Forall media_rules (map section_media l).
Proof.
  intros secs tss H F. induction F as [|ls ts secs tss Q F IH].
  - exists []. repeat split; try constructor. intros X. inversion X.
  - inversion H as [|? ? H1 H2]; subst. destruct (IH H2) as (l & C & O & L & P & X & R).
    destruct (section_typed ls ts H1 Q) as (sec & -> & O1 & P1 & X1 & R1). exists (sec :: l).
    split; [cbn [List.concat flat_map]; rewrite C; reflexivity|]. split; [constructor; assumption|].
    split; [cbn; rewrite L; reflexivity|]. split.
    + intros Y. inversion Y; subst. cbn [map]. constructor; auto.
    + split; [|constructor; assumption]. cbn [map]. rewrite !Exists_cons. tauto.
Qed.
Lemma name_read : forall text, exists r, session_name text r.
Proof.
  intros text. eexists. apply session_name_spec.
Qed.
Lemma rfc_all_kinds : forall ls n, rfc_document ls n -> Forall (fun t => exists K, of_kind K t) ls.
Proof.
  intros ls n (v & o & s & head & secs & -> & Hv & Ho & Hs & Hh & _ & HS & _).
  repeat (constructor; [eexists; eassumption|]). apply Forall_app. split; [eapply Forall_impl; [|exact Hh]; eexists; eassumption|].
  clear Hh. induction HS as [|l ls (m & a & c & b & -> & Hm & Ha & Hc & _ & Hb & _ & _) HS IH]; [constructor|].
  cbn [List.concat]. apply Forall_app. split; [|exact IH]. constructor; [eexists; exact Hm|]. rewrite !Forall_app.
  repeat split; [eapply Forall_impl; [|exact Ha]|eapply Forall_impl; [|exact Hc]|eapply Forall_impl; [|exact Hb]]; eexists; eassumption.
Qed.
Lemma documents_accepted : forall ls n sdp strict, rfc_document ls n -> lines sdp = ls -> 51 <= byte_len sdp ->
  exists s, parse_sdp sdp strict = Ok s /\ s_warnings s = [] /\ List.length (s_media s) = n.
Proof.
  intros ls n sdp strict D L B. destruct (reads ls (rfc_all_kinds ls n D) 0) as (ts & R & F).
  destruct D as (v & o & sn & head & secs & -> & Hv & Ho & Hs & Hh & Ht & HS & Hc & He & Hn).
  assert (R' := R). rewrite <- L in R'.
  inversion F as [|? ty1 ? r1 F1 G1 Q1 Q2]; subst. inversion G1 as [|? ty2 ? r2 F2 G2 Q1 Q2]; subst.
  inversion G2 as [|? ty3 ? r3 F3 G3 Q1 Q2]; subst. clear F G1 G2.
  destruct (fits_in _ _ _ Hv F1) as [X1|[]]. symmetry in X1. apply name_v in X1. destruct X1 as [ver ->].
  destruct (fits_in _ _ _ Ho F2) as [X1|[]]. symmetry in X1. apply name_o in X1. destruct X1 as [org ->].
  destruct (fits_in _ _ _ Hs F3) as [X1|[]]. symmetry in X1. apply name_s in X1. destruct X1 as [nam ->].
  apply Forall2_app_inv_l in G3. destruct G3 as (th & r & Fh & Fr & ->). apply f2_concat in Fr. destruct Fr as (tss & -> & Fr).
  destruct (sections_typed _ _ HS Fr) as (l & C & O & LL & P & X & RR). destruct (name_read nam) as [nm Hnm].
  assert (WT := proj1 (fits_with "t" _ _ Fh) Ht).
  set (s := {| s_version := ver; s_origin := org; s_session := nm; s_connection := last_of (connections th);
               s_bandwidth := bandwidths th; s_timing := last_of (timings th); s_attribute := attributes th;
               s_media := map section_media l; s_warnings := [] |}).
  exists s. split; [|split; [reflexivity|unfold s; cbn [s_media]; rewrite map_length; exact LL]].
  apply document. split; [exact B|]. exists (TyVersion ver :: TyOrigin org :: TySession nam :: th ++ List.concat tss), [].
  split; [exact R'|]. split; [reflexivity|]. split; [reflexivity|]. split.
  { destruct th as [|y th]; [apply Exists_nil in WT; destruct WT|]. cbn [List.length app]. lia. }
  split.
  - exists nam, th, l. rewrite C. split; [reflexivity|]. split; [exact Hnm|]. split.
    { eapply Forall_impl; [|exact (fits_all _ _ _ Hh Fh)]. intros ty H. exact (names_session ty H). }
    split; [exact O|]. repeat split.
  - constructor; cbn [s s_timing s_connection s_media s_attribute].
    + apply has_last. apply exists_timing. exact WT.
    + destruct Hc as [Hc|Hc]; [left; apply has_last; apply exists_connection; exact (proj1 (fits_with "c" _ _ Fh) Hc)|right; exact (P Hc)].
    + intros [H1 H2]. apply He. split; [|exact (X H2)]. apply (fits_with "extmap" _ _ Fh). apply has_name; [cbn; lia|exact H1].
    + exact RR.
Qed.
Lemma documents : forall ls n strict, rfc_document ls n -> Forall (fun l => ~ In 10 l) ls ->
  51 <= byte_len (flat_map (fun l => l ++ [13; 10]) ls) ->
  exists s, parse_sdp (flat_map (fun l => l ++ [13; 10]) ls) strict = Ok s /\ s_warnings s = [] /\ List.length (s_media s) = n.
Proof.
  intros ls n strict D NL B. eapply documents_accepted; [exact D| |exact B].
  rewrite <- (app_nil_r (flat_map _ ls)). change [13; 10] with crlf. rewrite lines_flat; [apply app_nil_r|].
  eapply Forall_impl; [|exact NL]. intros t H. apply not_true_iff_false. intros Q. apply H. apply contains_In. exact Q.
Qed.
End WithExt.

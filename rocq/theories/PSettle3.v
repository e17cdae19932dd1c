(** * Printing and parsing again: lines and sessions (C55) *)
From Coq Require Import List NArith ZArith Bool Ascii String Lia ZifyBool ZifyNat ZifyN.
From Verif Require Import Str Num Net Types Ext Show Session SpecApi SpecDoc SpecVal SpecItems SpecPrint SpecUnsup SpecSettle.
From Verif Require Import PPanic PDoc PDoc2 PVal5 PVal8 PVal9 PPrint PPrint2 PPrint3 PPrint4 PPrint5 PPrint6 PPrint7 PPrint8 PPrint9 PPrint10 PPrint11 PUnsup PSettle PSettle2.
Import ListNotations.
Open Scope N_scope.
Open Scope list_scope.
Section WithExt.
Context {E : Ext} (X : ext_ok E).

Lemma shrinks_dec : forall t t', shrinks t t' \/ ~ shrinks t t'.
Proof.
  intros t t'. unfold shrinks. destruct (list_eq_dec N.eq_dec t' t) as [->|K]; [left; left; reflexivity|].
  destruct (Compare_dec.lt_dec (List.length t') (List.length t)); [left; right; assumption|]. right. tauto.
Qed.
(** ** Lines *)
Lemma means_wf : forall line ty, countable ty (List.length line) -> line_means line ty -> item_wf ty.
Proof. intros line ty C M. apply (line_bwd _ 0%nat) in M; [|exact C]. exact (line_means_wf X _ _ _ M). Qed.
Lemma nonempty_text : forall t s, s <> [] -> attr_to_string t s <> [].
Proof. intros t s N. unfold attr_to_string. destruct s; [congruence|]. cbn [is_empty]. destruct (show_attr_type t); discriminate. Qed.
Lemma shr_attr : forall a a' t s s', show_attr a = attr_to_string t s -> show_attr a' = attr_to_string t s' -> s' <> [] ->
  shrinks s s' -> shrinks (printed_line (TyAttribute a)) (printed_line (TyAttribute a')).
Proof.
  intros a a' t s s' Q Q' N Sh. unfold printed_line. cbn [line_letter item_text]. rewrite Q, Q'. unfold attr_to_string.
  apply shr_cons, shr_cons. destruct s' as [|c' s']; [congruence|]. destruct s as [|c s]; [destruct Sh as [Sh|Sh]; [discriminate Sh | cbn in Sh; lia]|].
  cbn [is_empty]. apply shr_app; [apply shr_refl|]. apply shr_app; [apply shr_refl | exact Sh].
Qed.
Lemma lossy_settles : forall a a', item_wf (TyAttribute a) -> attr_lossy a -> ~ item_nan (TyAttribute a) ->
  line_means (printed_line (TyAttribute a)) (TyAttribute a') ->
  sdp_name a' = sdp_name a /\ show_attr a' <> [] /\ ~ item_nan (TyAttribute a') /\
  shrinks (printed_line (TyAttribute a)) (printed_line (TyAttribute a')) /\ (~ unsettled a -> ~ attr_lossy a').
Proof.
  intros a a' [R W] L N M. cbn [item_range] in R.
  assert (F : forall t s s', show_attr a = attr_to_string t s -> show_attr a' = attr_to_string t s' -> s' <> [] -> sdp_name a' = sdp_name a ->
    ~ item_nan (TyAttribute a') -> shrinks s s' /\ (~ unsettled a -> ~ attr_lossy a') ->
    sdp_name a' = sdp_name a /\ show_attr a' <> [] /\ ~ item_nan (TyAttribute a') /\
    shrinks (printed_line (TyAttribute a)) (printed_line (TyAttribute a')) /\ (~ unsettled a -> ~ attr_lossy a')).
  { intros t s s' Q1 Q2 Ns' Q3 Q4 [Sh U]. split; [exact Q3|]. split; [rewrite Q2; apply nonempty_text, Ns'|]. split; [exact Q4|].
    split; [exact (shr_attr _ _ _ _ _ Q1 Q2 Ns' Sh) | exact U]. }
  assert (Wq : match a' with AImageAttr _ => True | _ => item_wf (TyAttribute a') end).
  { destruct a'; try exact I; (eapply means_wf; [|exact M]; exact I). }
  destruct a; try contradiction (N L); try contradiction L;
    lazymatch type of M with line_means (printed_line (TyAttribute ?x)) _ =>
      destruct (value_of_other x a' _ _ (fun F => F) eq_refl eq_refl M) as (Ne & Q & V) end;
    destruct a'; try discriminate Q; 
    (refine (F _ _ _ eq_refl eq_refl _ eq_refl (fun F => F) _); clear F Q).
  - destruct (fmtp_settles _ _ R W L Ne V) as [_ Nl]. destruct Wq as [R' W'].
    pose proof (show_attr_nonempty X _ R' W' Nl) as K. intro Z. apply K. cbn [show_attr]. rewrite Z. reflexivity.
  - destruct (fmtp_settles _ _ R W L Ne V) as [Sh Nl]. split; [exact Sh | intros _; exact Nl].
  - unfold show_msid_semantic. lazymatch goal with |- ms_semantic ?m ++ _ <> [] => destruct (ms_semantic m); discriminate end.
  - destruct (msid_semantic_settles _ _ W L V) as [Sh Nl]. split; [exact Sh | intros _; exact Nl].
  - unfold show_rid. lazymatch goal with |- rid_id ?m ++ _ <> [] => destruct (rid_id m); discriminate end.
  - exact (rid_settles _ _ R W L V).
  - destruct Wq as [_ [_ W']]. intro Z. apply W'. revert Z.
    lazymatch goal with |- show_simulcast ?x = [] -> _ => destruct (sim_send x) as [|v1 l1] eqn:K1; destruct (sim_receive x) as [|v2 l2] eqn:K2;
      [reflexivity| | |]; unfold show_simulcast; rewrite K1, K2; discriminate end.
  - exact (simulcast_settles _ _ W V).
Qed.
Definition same_item (ty ty' : sdp_type) : Prop :=
  match ty with
  | TyAttribute a => exists a', ty' = TyAttribute a' /\ sdp_name a' = sdp_name a /\ show_attr a' <> []
  | _ => ty' = ty
  end.
Lemma item_settles : forall ty ty', item_wf ty -> ~ item_nan ty -> countable ty (List.length (printed_line ty)) ->
  countable ty' (List.length (printed_line ty)) -> line_means (printed_line ty) ty' ->
  same_item ty ty' /\ ~ item_nan ty' /\ shrinks (printed_line ty) (printed_line ty') /\ (~ item_unsettled ty -> ~ item_lossy ty').
Proof.
  intros ty ty' W N C C' M.
  assert (Same : ~ item_lossy ty -> ty' = ty).
  { intro L. exact (line_means_fun _ _ _ C' C M (item_prints X _ W L)). }
  destruct ty as [a| | | | | | |]; try (rewrite (Same (fun F => F)); split; [reflexivity|]; split; [exact (fun F => F)|]; split; [apply shr_refl | exact (fun _ F => F)]).
  assert (Ea : exists a', ty' = TyAttribute a').
  { pose proof (plain_means _ _ (plain_printed _) M) as K. destruct ty' as [a'| | | | | | |]; try discriminate K. exists a'. reflexivity. }
  destruct Ea as (a' & ->). cbn [item_unsettled item_lossy same_item] in *.
  assert (K : attr_lossy a \/ ~ attr_lossy a -> sdp_name a' = sdp_name a /\ show_attr a' <> [] /\ ~ item_nan (TyAttribute a') /\
    shrinks (printed_line (TyAttribute a)) (printed_line (TyAttribute a')) /\ (~ unsettled a -> ~ attr_lossy a')).
  { intros [L|L]; [exact (lossy_settles a a' W L N M)|]. pose proof (Same L) as Q. injection Q as ->. destruct W as [R W].
    split; [reflexivity|]. split; [exact (show_attr_nonempty X _ R W L)|]. split; [exact N|]. split; [apply shr_refl | intros _; exact L]. }
  assert (D : ~ ~ (attr_lossy a \/ ~ attr_lossy a)) by tauto.
  split; [exists a'; split; [reflexivity|]; split|].
  - destruct (String.string_dec (sdp_name a') (sdp_name a)) as [Q|Q]; [exact Q|]. exfalso. apply D. intro D'. apply Q, K, D'.
  - intro Q. apply D. intro D'. destruct (K D') as (_ & K2 & _). exact (K2 Q).
  - split; [intro Q; apply D; intro D'; destruct (K D') as (_ & _ & K3 & _); exact (K3 Q)|]. split.
    + destruct (shrinks_dec (printed_line (TyAttribute a)) (printed_line (TyAttribute a'))) as [Q|Q]; [exact Q|].
      exfalso. apply D. intro D'. apply Q, K, D'.
    + intros U L. apply D. intro D'. destruct (K D') as (_ & _ & _ & _ & K5). exact (K5 U L).
Qed.

(** ** The lines that are read *)
Inductive kept : list str -> list sdp_type -> Prop :=
| kept_nil : kept [] []
| kept_line : forall x l ty ts, line_means x ty -> kept l ts -> kept (x :: l) (ty :: ts)
| kept_skip : forall x l ts, line_unsupported x -> kept l ts -> kept (x :: l) ts.
Lemma reads_kept : forall ls n ts ws, Forall plain ls -> Reads n ls ts ws -> kept ls ts.
Proof.
  intros ls n ts ws F R. induction R as [|n x ls ts ws B R IH|n x ls ts ws l B P R IH|n x ls ts ws e B P R IH];
    [constructor|..]; inversion F as [|? ? Px F']; subst.
  - exfalso. destruct Px as (c & v & -> & I). inversion B as [|? ? Bc _]; subst. revert I Bc. generalize c. clear.
    assert (K : Forall (fun c => is_ws c <> true) (lit "vostbcam")) by (repeat constructor; discriminate).
    intros c I. exact (Forall_in _ _ _ K I).
  - apply kept_line; [exact (proj2 (proj2 (line_fwd _ _ _ P))) | exact (IH F')].
  - apply kept_skip; [apply (line_unsupported_iff x n); exists e; exact P | exact (IH F')].
Qed.
Lemma kept_app : forall a b ts, kept (a ++ b) ts -> exists ts1 ts2, ts = ts1 ++ ts2 /\ kept a ts1 /\ kept b ts2.
Proof.
  induction a as [|x a IH]; intros b ts K; [exists [], ts; split; [reflexivity|]; split; [constructor | exact K]|].
  cbn [app] in K. inversion K as [|? ? ty ts' M K'|? ? ts' U K']; subst; destruct (IH _ _ K') as (t1 & t2 & -> & K1 & K2).
  - exists (ty :: t1), t2. split; [reflexivity|]. split; [apply kept_line|]; assumption.
  - exists t1, t2. split; [reflexivity|]. split; [apply kept_skip|]; assumption.
Qed.
Lemma kept_exactly : forall tys ts, Forall item_wf tys -> Forall (fun ty => is_attribute ty = false) tys ->
  kept (map printed_line tys) ts -> ts = tys.
Proof.
  induction tys as [|ty tys IH]; intros ts W A K; [inversion K; reflexivity|]. inversion W; inversion A; subst.
  assert (L : ~ item_lossy ty) by (destruct ty; [discriminate | exact (fun F => F)..]).
  assert (C : forall n, countable ty n) by (intro n; destruct ty; [discriminate | exact I..]).
  assert (P : line_means (printed_line ty) ty) by (apply (item_prints X); assumption).
  cbn [map] in K. inversion K as [|? ? ty' ts' M K'|? ? ts' U K']; subst.
  - f_equal; [|apply IH; assumption]. assert (C' : forall n, countable ty' n).
    { intro n. pose proof (plain_means _ _ (plain_printed _) M) as Q. rewrite (plain_means _ _ (plain_printed _) P) in Q.
      destruct ty'; [cbn in Q; congruence | exact I..]. }
    exact (line_means_fun _ _ _ (C' _) (C _) M P).
  - contradiction (means_not_unsupported _ _ (C _) P U).
Qed.
Inductive shrunk : list str -> list str -> Prop :=
| shrunk_nil : shrunk [] []
| shrunk_line : forall x y l l', shrinks x y -> shrunk l l' -> shrunk (x :: l) (y :: l')
| shrunk_skip : forall x l l', shrunk l l' -> shrunk (x :: l) l'.
Lemma shrunk_refl : forall l, shrunk l l.
Proof. induction l; constructor; [apply shr_refl | assumption]. Qed.
Lemma shrunk_app : forall a a' b b', shrunk a a' -> shrunk b b' -> shrunk (a ++ b) (a' ++ b').
Proof. intros a a' b b' S1 S2. induction S1; cbn [app]; [exact S2 | constructor; assumption..]. Qed.
Lemma shrunk_crlf : forall l l', shrunk l l' -> shrinks (crlf_lines l) (crlf_lines l').
Proof.
  intros l l' S. induction S as [|x y l l' H S IH|x l l' S IH]; unfold crlf_lines in *; cbn [flat_map].
  - apply shr_refl.
  - apply shr_app; [|exact IH]. apply shr_app; [exact H | apply shr_refl].
  - right. apply shr_le in IH. rewrite !app_length. cbn [List.length]. lia.
Qed.
Lemma no_value : forall ty, ~ line_means (lit "a=") ty.
Proof.
  intros ty M. apply (line_bwd _ 0%nat) in M; [vm_compute in M; discriminate M|]. destruct ty as [[]| | | | | | |]; exact I || reflexivity.
Qed.
Lemma no_value_unsupported : ~ line_unsupported (lit "a=").
Proof. intro U. apply (line_unsupported_iff _ 0%nat) in U. destruct U as (e & U). vm_compute in U. discriminate U. Qed.
(** Attributes: what is read, instead. *)
Lemma kept_attributes : forall l ts, Forall (fun a => item_wf (TyAttribute a) /\ ~ item_nan (TyAttribute a)) l ->
  Forall (fun x => (Z.of_nat (List.length x) < 2147483648)%Z) (attribute_lines l) ->
  kept (attribute_lines l) ts ->
  exists l', ts = map TyAttribute l' /\ shrunk (attribute_lines l) (attribute_lines l') /\
    Forall (fun a' => exists a, In a l /\ sdp_name a' = sdp_name a /\ ~ item_nan (TyAttribute a') /\ (~ unsettled a -> ~ attr_lossy a')) l'.
Proof.
  intros l ts W C K. 
  assert (G : forall us, incl us l -> forall ts, kept (map shown us) ts -> Forall (fun x => (Z.of_nat (List.length x) < 2147483648)%Z) (map shown us) ->
    exists l', ts = map TyAttribute l' /\ shrunk (map shown us) (map shown l') /\
    Forall (fun a' => exists a, In a l /\ sdp_name a' = sdp_name a /\ show_attr a' <> [] /\ ~ item_nan (TyAttribute a') /\ (~ unsettled a -> ~ attr_lossy a')) l').
  { clear ts C K. induction us as [|a us IH]; intros In ts K C; [inversion K; exists []; split; [reflexivity|]; split; constructor|].
    cbn [map] in *. inversion C as [|? ? Ca C']; subst. assert (In' : incl us l) by (intros y Hy; apply In; right; exact Hy).
    assert (Ia : List.In a l) by (apply In; left; reflexivity). destruct (proj1 (Forall_forall _ _) W a Ia) as [Wa Na].
    inversion K as [|? ? ty ts' M K'|? ? ts' U K']; subst; destruct (IH In' _ K' C') as (l' & -> & Sh & F).
    - assert (Cty : forall ty, countable ty (List.length (shown a))) by (intros [[]| | | | | | |]; try exact I; exact Ca).
      destruct (item_settles _ _ Wa Na (Cty _) (Cty _) M) as ((a' & -> & Q & Ne) & N' & S' & U').
      exists (a' :: l'). split; [reflexivity|]. split; [apply shrunk_line; assumption|]. constructor; [|exact F].
      exists a. repeat (split; [assumption|]). exact U'.
    - exists l'. split; [reflexivity|]. split; [apply shrunk_skip, Sh | exact F]. }
  assert (D : attribute_lines l = [lit "a="] \/ exists us, incl us l /\ attribute_lines l = map shown us).
  { unfold attribute_lines. destruct l as [|a0 l0]; [right; exists []; split; [intros ? [] | reflexivity]|].
    set (f := fun t : str => match t with [] => false | _ => true end).
    assert (Fm : forall k, filter f (map show_attr k) = map show_attr (filter (fun a => f (show_attr a)) k)).
    { induction k as [|y k IHk]; [reflexivity|]. cbn [map filter]. destruct (f (show_attr y)); cbn [map]; rewrite IHk; reflexivity. }
    destruct (filter f (map show_attr (a0 :: l0))) as [|t us] eqn:Kf; [left; reflexivity|]. right.
    exists (filter (fun a => f (show_attr a)) (a0 :: l0)). split; [intros y Hy; apply filter_In in Hy; exact (proj1 Hy)|].
    rewrite <- Kf, Fm, map_map. reflexivity. }
  destruct D as [D|(us & In & D)]; rewrite D in K.
  - exfalso. inversion K as [|? ? ty ts' M K'|? ? ts' U K']; subst; [exact (no_value _ M) | exact (no_value_unsupported U)].
  - rewrite D in C |- *. destruct (G us In ts K C) as (l' & -> & Sh & F). exists l'. split; [reflexivity|]. split.
    + rewrite (attribute_lines_map l'); [exact Sh|]. intros a' Ia'. destruct (Forall_in _ _ _ F Ia') as (a & _ & _ & Ne & _). exact Ne.
    + eapply Forall_impl; [|exact F]. intros a' (a & H1 & H2 & _ & H3 & H4). exists a. tauto.
Qed.

(** ** Sessions *)
Definition short_lines (ls : list str) : Prop := Forall (fun x => (Z.of_nat (List.length x) < 2147483648)%Z) ls.
Definition attributes_from (l l' : list attr) : Prop :=
  Forall (fun a' => exists a, In a l /\ sdp_name a' = sdp_name a /\ ~ item_nan (TyAttribute a') /\ (~ unsettled a -> ~ attr_lossy a')) l'.
Definition media_from (m m' : media) : Prop :=
  m_media m' = m_media m /\ m_connection m' = m_connection m /\ m_bandwidth m' = m_bandwidth m /\ attributes_from (m_attribute m) (m_attribute m').
Lemma map_lines : forall {A} (c : A -> sdp_type) l, map (fun x => printed_line (c x)) l = map printed_line (map c l).
Proof. intros A c l. rewrite map_map. reflexivity. Qed.
Lemma kept_media : forall ms ts, Forall (fun m => Forall item_wf (media_items m) /\ ~ Exists item_nan (media_items m)) ms ->
  short_lines (flat_map media_lines ms) -> kept (flat_map media_lines ms) ts ->
  exists ms', ts = flat_map section_lines (map printed_section ms') /\ shrunk (flat_map media_lines ms) (flat_map media_lines ms') /\
    Forall2 media_from ms ms'.
Proof.
  induction ms as [|m ms IH]; intros ts W C K; [inversion K; exists []; split; [reflexivity|]; split; constructor|].
  inversion W as [|? ? [Wm Nm] W']; subst. cbn [flat_map] in *. apply kept_app in K. destruct K as (ts1 & ts2 & -> & K1 & K2).
  apply Forall_app in C. destruct C as [C1 C2]. destruct (IH _ W' C2 K2) as (ms' & -> & Sh & F).
  assert (Em : media_lines m = map printed_line (TyMedia (m_media m) :: map TyBandwidth (m_bandwidth m) ++ map TyConnection (of_option (m_connection m))) ++ attribute_lines (m_attribute m)).
  { unfold media_lines. cbn [map app]. rewrite map_app, <- app_assoc, !map_map. reflexivity. }
  rewrite Em in K1, C1. apply kept_app in K1. destruct K1 as (t1 & t2 & -> & K1 & K3). apply Forall_app in C1. destruct C1 as [_ C1].
  unfold media_items in Wm, Nm. rewrite Forall_forall in Wm.
  apply kept_exactly in K1.
  3:{ constructor; [reflexivity|]. apply Forall_app; split; apply Forall_map_in; reflexivity. }
  2:{ apply Forall_forall. intros ty Hty. apply Wm. cbn [In] in *. rewrite !in_app_iff in *. tauto. }
  destruct (kept_attributes (m_attribute m) t2) as (l' & -> & Sl & Fl); [|exact C1 | exact K3|].
  { apply Forall_forall. intros a Ha. assert (I : In (TyAttribute a) (map TyAttribute (m_attribute m))) by (apply in_map, Ha). split.
    - apply Wm. cbn [In]. rewrite !in_app_iff. tauto.
    - intro K. apply Nm, Exists_exists. exists (TyAttribute a). split; [|exact K]. cbn [In]. rewrite !in_app_iff. tauto. }
  exists ({| m_media := m_media m; m_connection := m_connection m; m_bandwidth := m_bandwidth m; m_attribute := l' |} :: ms').
  split.
  { rewrite K1. cbn [map flat_map]. f_equal. unfold section_lines, printed_section, printed_body. cbn. rewrite <- app_assoc. reflexivity. }
  split.
  { cbn [flat_map]. apply shrunk_app; [|exact Sh]. rewrite Em. unfold media_lines. cbn [m_media m_connection m_bandwidth m_attribute].
    cbn [map app]. apply shrunk_line; [apply shr_refl|]. rewrite map_app, <- app_assoc, !map_map.
    apply shrunk_app; [apply shrunk_refl|]. apply shrunk_app; [apply shrunk_refl | exact Sl]. }
  constructor; [|exact F]. repeat (split; [reflexivity|]). exact Fl.
Qed.
Lemma assembles_once : forall ts s s2, (4 <= List.length ts)%nat -> Assembles ts s -> structural s -> s_warnings s = [] ->
  Assembles ts s2 -> s_warnings s2 = [] -> s2 = s.
Proof.
  intros ts s s2 L A St W A2 W2. set (l := map (fun ty => {| l_number := 0%nat; l_type := ty; l_text := [] |}) ts).
  assert (El : map l_type l = ts) by (unfold l; rewrite map_map; apply map_id).
  assert (Ll : (4 <= List.length l)%nat) by (unfold l; rewrite map_length; exact L).
  assert (P : parse_sdp_vector l = Ok s) by (apply assembly; rewrite El; auto).
  apply Assembles_iff in A2; [|exact W2]. destruct A2 as (v & o & name & head & secs & Q & F1 & F2 & ->). rewrite <- El in Q.
  rewrite (vector_good _ _ _ _ _ _ Q F1 F2 Ll) in P. destruct (sanity_check _); [|discriminate P | discriminate P].
  cbn [bind] in P. injection P as P. exact P.
Qed.

Lemma from_names : forall (P : string -> Prop) l l', attributes_from l l' -> Forall (fun a => P (sdp_name a)) l -> Forall (fun a => P (sdp_name a)) l'.
Proof.
  intros P l l' F W. eapply Forall_impl; [|exact F]. intros a' (a & I & Q & _). rewrite Q. exact (Forall_in _ _ _ W I).
Qed.
Lemma attribute_in : forall s a, In a (all_attributes s) -> In (TyAttribute a) (session_items s).
Proof.
  intros s a I. unfold all_attributes in I. unfold session_items. right. right. rewrite !in_app_iff. right. right. right.
  apply in_app_or in I. destruct I as [I|I]; [left; apply in_map, I | right]. apply in_flat_map in I. destruct I as (m & Im & I).
  apply in_flat_map. exists m. split; [exact Im|]. unfold media_items. right. rewrite !in_app_iff. right. right. apply in_map, I.
Qed.
Lemma session_settles : forall s b s', session_wf s -> ~ Exists item_nan (session_items s) ->
  (Z.of_nat (List.length (show_session s)) < 2147483648)%Z -> parse_sdp (show_session s) b = Ok s' ->
  shrinks (show_session s) (show_session s') /\ ~ Exists item_nan (session_items s') /\
  (~ has_unsettled s -> ~ session_lossy s').
Proof.
  intros s b s' W Nn Sh P. pose proof W as (Wi & Wc & W1 & W2 & W3).
  apply document in P. destruct P as (_ & ts & ws & R & _ & _ & L4 & A & St).
  destruct (session_lines_ok X s Wc) as (Sl & T & _). rewrite T in R. apply reads_kept in R; [|apply session_plain].
  assert (C : short_lines (session_lines s)).
  { rewrite <- T. apply Forall_forall. intros x Hx. apply lines_length in Hx. lia. }
  rewrite Forall_forall in Wi.
  set (fixed := TyVersion (s_version s) :: TyOrigin (s_origin s) :: TySession (printed_name s) ::
    map TyTiming (of_option (s_timing s)) ++ map TyBandwidth (s_bandwidth s) ++ map TyConnection (of_option (s_connection s))).
  assert (Es : session_lines s = map printed_line fixed ++ attribute_lines (s_attribute s) ++ flat_map media_lines (s_media s)).
  { unfold session_lines, fixed. cbn [map app]. rewrite !map_app, <- !app_assoc, !map_map. reflexivity. }
  rewrite Es in R, C. apply kept_app in R. destruct R as (t1 & tr & -> & K1 & R). apply kept_app in R. destruct R as (t2 & t3 & -> & K2 & K3).
  apply Forall_app in C. destruct C as [_ C]. apply Forall_app in C. destruct C as [C2 C3].
  apply kept_exactly in K1.
  3:{ unfold fixed. do 3 (constructor; [reflexivity|]). repeat (apply Forall_app; split); apply Forall_map_in; reflexivity. }
  2:{ apply Forall_forall. intros ty Hty. unfold fixed in Hty. cbn [In] in Hty.
      destruct Hty as [<-|[<-|[<-|Hty]]]; [..|].
      - apply Wi. left. reflexivity.
      - apply Wi. right. left. reflexivity.
      - split; exact I.
      - apply Wi. unfold session_items. right. right. rewrite !in_app_iff in *. tauto. }
  assert (Attr : forall a, In a (all_attributes s) -> item_wf (TyAttribute a) /\ ~ item_nan (TyAttribute a)).
  { intros a Ha. apply attribute_in in Ha. split; [exact (Wi _ Ha)|]. intro K. apply Nn, Exists_exists. exists (TyAttribute a). split; assumption. }
  destruct (kept_attributes (s_attribute s) t2) as (l' & -> & Sl2 & Fl); [|exact C2 | exact K2|].
  { apply Forall_forall. intros a Ha. apply Attr. unfold all_attributes. apply in_or_app. left. exact Ha. }
  destruct (kept_media (s_media s) t3) as (ms' & -> & Sl3 & Fm); [|exact C3 | exact K3|].
  { apply Forall_forall. intros m Hm. assert (Im : forall ty, In ty (media_items m) -> In ty (session_items s)).
    { intros ty Hty. unfold session_items. right. right. rewrite !in_app_iff. right. right. right. right. apply in_flat_map. exists m. split; assumption. }
    split; [apply Forall_forall; intros ty Hty; exact (Wi _ (Im _ Hty))|]. intro K. apply Nn. apply Exists_exists in K. destruct K as (ty & K1' & K2').
    apply Exists_exists. exists ty. split; [exact (Im _ K1') | exact K2']. }
  subst t1. set (s2 := {| s_version := s_version s; s_origin := s_origin s; s_session := s_session s; s_connection := s_connection s;
    s_bandwidth := s_bandwidth s; s_timing := s_timing s; s_attribute := l'; s_media := ms'; s_warnings := [] |}).
  assert (Ep : printed_items s2 = fixed ++ map TyAttribute l' ++ flat_map section_lines (map printed_section ms')).
  { unfold printed_items, printed_head, fixed, s2, printed_name.
    cbn [s_version s_origin s_session s_connection s_bandwidth s_timing s_attribute s_media app]. rewrite <- !app_assoc. reflexivity. }
  assert (Qs : s2 = with_warnings s' []).
  { apply (assembles_once (printed_items s2)).
    - rewrite Ep. exact L4.
    - rewrite Ep. apply Assembles_warnings, A.
    - apply structural_warnings, St.
    - reflexivity.
    - refine (names_assemble s2 _ _ _); [exact W1 | exact (from_names (fun n => In n session_names) _ _ Fl W2)|]. cbn [s2 s_media].
      clear - Fm W3. induction Fm as [|m m' l k H F IH]; [constructor|]. inversion W3; subst. constructor; [|apply IH; assumption].
      destruct H as (_ & _ & _ & H). eapply (from_names (fun n => In n media_names)); eassumption.
    - reflexivity. }
  assert (Fa : attributes_from (all_attributes s) (all_attributes s2)).
  { unfold all_attributes, attributes_from. cbn [s2 s_attribute s_media]. apply Forall_app. split.
    - eapply Forall_impl; [|exact Fl]. intros a' (a & I & H). exists a. split; [apply in_or_app; left; exact I | exact H].
    - clear - Fm. apply Forall_forall. intros a' Ha'. apply in_flat_map in Ha'. destruct Ha' as (m' & Im' & Ha').
      assert (D : exists m, In m (s_media s) /\ media_from m m').
      { clear - Fm Im'. induction Fm as [|m k l l' H F IH]; [destruct Im'|]. destruct Im' as [->|Im']; [exists m; split; [left; reflexivity | exact H]|].
        destruct (IH Im') as (m0 & I0 & H0). exists m0. split; [right; exact I0 | exact H0]. }
      destruct D as (m & Im & (_ & _ & _ & H)). destruct (Forall_in _ _ _ H Ha') as (a & Ia & Ha). exists a. split; [|exact Ha].
      apply in_or_app. right. apply in_flat_map. exists m. split; assumption. }
  assert (E1 : show_session s' = show_session s2) by (rewrite Qs; reflexivity).
  assert (E2 : session_items s' = session_items s2) by (rewrite Qs; reflexivity).
  split.
  { rewrite E1, (session_is_lines s), (session_is_lines s2). apply shrunk_crlf. rewrite Es.
    unfold session_lines. cbn [s2 s_version s_origin s_session s_connection s_bandwidth s_timing s_attribute s_media].
    unfold fixed. cbn [map app]. rewrite !map_app, <- !app_assoc, !map_map. do 3 (apply shrunk_line; [apply shr_refl|]).
    do 3 (apply shrunk_app; [apply shrunk_refl|]). apply shrunk_app; assumption. }
  rewrite E2. split.
  - intro K. apply Exists_exists in K. destruct K as (ty & I & K). destruct ty; try exact K. apply attribute_item in I.
    destruct (Forall_in _ _ _ Fa I) as (a0 & _ & _ & H & _). exact (H K).
  - intros U K. unfold session_lossy in K. rewrite E2 in K. apply Exists_exists in K. destruct K as (ty & I & K). destruct ty; try exact K. apply attribute_item in I.
    destruct (Forall_in _ _ _ Fa I) as (a0 & I0 & _ & _ & H). apply H; [|exact K]. intro U'. apply U. apply Exists_exists. exists (TyAttribute a0).
    split; [apply attribute_in, I0 | exact U'].
Qed.
End WithExt.

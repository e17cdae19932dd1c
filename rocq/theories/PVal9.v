(** * Lines and documents (proofs for C13, C14, C16, C18, C20, C36, C42, C44, C47) *)
From Coq Require Import List NArith ZArith Bool Ascii String Lia.
From Coq Require Import ZifyBool ZifyNat ZifyN.
From Verif Require Import Str Num Net Types Ext Show Address AttrParse Media Session.
From Verif Require Import StrLemmas NumLemmas NetLemmas.
From Verif Require Import SpecApi SpecDoc SpecVal PPanic PDoc PDoc2 PDoc3 PDoc4.
From Verif Require Import PVal PVal2 PVal3 PVal4 PVal5 PVal6 PVal7 PVal8.
Import ListNotations.
Open Scope N_scope.
Open Scope list_scope.

Section WithExt.
Context {E : Ext}.

Lemma line_iff : forall line n l, countable (l_type l) (List.length line) ->
  (parse_sdp_line line n = Ok l <-> l_number l = n /\ l_text l = line /\ line_means line (l_type l)).
Proof.
  intros line n l C. split; [apply line_fwd|]. intros (<- & Ht & M).
  rewrite (line_bwd _ (l_number l) _ C M). destruct l as [k ty t]. cbn in *. subst. reflexivity.
Qed.
Lemma line_means_fun : forall line a b, countable a (List.length line) -> countable b (List.length line) ->
  line_means line a -> line_means line b -> a = b.
Proof.
  intros line a b Ca Cb Ha Hb. apply (line_bwd _ 0%nat) in Ha; [|exact Ca].
  apply (line_bwd _ 0%nat) in Hb; [|exact Cb]. congruence.
Qed.

(** A line given by its letter and its value. *)
Lemma means_plain : forall c v ty, is_ws c = false -> c <> 61 ->
  (line_means (c :: 61 :: v) ty <-> same_letter c (line_letter ty) /\ type_value v ty).
Proof.
  intros c v ty W N. split.
  - intros (w1 & d & w2 & x & El & B1 & B2 & Sl & T).
    destruct w1 as [|y w1].
    + cbn [app] in El. injection El as <- El.
      destruct w2 as [|y w2]; cbn [app] in El.
      * injection El as Ex. subst x. auto.
      * injection El as Ey Ex. inversion B2; subst. discriminate.
    + cbn [app] in El. injection El as <- El. inversion B1; subst. congruence.
  - intros [Sl T]. exists [], c, [], v. repeat split; try apply Forall_nil; assumption.
Qed.
Lemma plain_iff : forall c v n l, is_ws c = false -> c <> 61 ->
  countable (l_type l) (List.length (c :: 61 :: v)) ->
  (parse_sdp_line (c :: 61 :: v) n = Ok l <->
   l_number l = n /\ l_text l = c :: 61 :: v /\
   same_letter c (line_letter (l_type l)) /\ type_value v (l_type l)).
Proof.
  intros c v n l W N C. rewrite line_iff by exact C. rewrite means_plain by assumption. tauto.
Qed.

Lemma plain_kind : forall c v n l (T : sdp_type -> Prop), is_ws c = false -> c <> 61 ->
  (forall ty, same_letter c (line_letter ty) -> T ty) -> (forall a, ~ T (TyAttribute a)) ->
  (forall ty, T ty -> same_letter c (line_letter ty)) ->
  (parse_sdp_line (c :: 61 :: v) n = Ok l <->
   exists ty, T ty /\ type_value v ty /\ l = {| l_number := n; l_type := ty; l_text := c :: 61 :: v |}).
Proof.
  intros c v n l T W N T1 T2 T3. split.
  - intro H. apply line_fwd in H. destruct H as (Hn & Ht & M). apply means_plain in M; [|assumption..].
    destruct M as [Sl V]. exists (l_type l). split; [apply T1, Sl|]. split; [exact V|].
    destruct l as [k ty t]; cbn [l_number l_type l_text] in *; subst; reflexivity.
  - intros (ty & K & V & ->). apply line_bwd.
    + destruct ty as [a| | | | | | |]; try exact I. destruct (T2 _ K).
    + apply means_plain; [assumption..|]. split; [apply T3, K | exact V].
Qed.
Ltac plain_line C :=
  cbn [app]; rewrite (plain_kind _ _ _ _ (fun ty => exists x, ty = C x));
  [ split; [ intros (ty & (x & ->) & V & ->); exists x; split; [exact V | reflexivity]
           | intros (x & V & ->); exists (C x); split; [eauto | split; [exact V | reflexivity]] ]
  | reflexivity | discriminate
  | intros ty K; destruct ty; try discriminate K; eexists; reflexivity
  | intros a (x & K); discriminate
  | intros ty (x & ->); reflexivity ].

Lemma media_line_iff : forall v n l, parse_sdp_line (lit "m=" ++ v) n = Ok l <->
  exists m, media_line_value v m /\
    l = {| l_number := n; l_type := TyMedia m; l_text := lit "m=" ++ v |}.
Proof. intros v n l. plain_line TyMedia. Qed.
Lemma connection_line_iff : forall v n l, parse_sdp_line (lit "c=" ++ v) n = Ok l <->
  exists x, connection_value v x /\
    l = {| l_number := n; l_type := TyConnection x; l_text := lit "c=" ++ v |}.
Proof. intros v n l. plain_line TyConnection. Qed.
Lemma origin_line_iff : forall v n l, parse_sdp_line (lit "o=" ++ v) n = Ok l <->
  exists x, origin_value v x /\
    l = {| l_number := n; l_type := TyOrigin x; l_text := lit "o=" ++ v |}.
Proof. intros v n l. plain_line TyOrigin. Qed.
Lemma timing_line_iff : forall v n l, parse_sdp_line (lit "t=" ++ v) n = Ok l <->
  exists x, timing_value v x /\
    l = {| l_number := n; l_type := TyTiming x; l_text := lit "t=" ++ v |}.
Proof. intros v n l. plain_line TyTiming. Qed.
Lemma bandwidth_line_iff : forall v n l, parse_sdp_line (lit "b=" ++ v) n = Ok l <->
  exists x, bandwidth_value v x /\
    l = {| l_number := n; l_type := TyBandwidth x; l_text := lit "b=" ++ v |}.
Proof. intros v n l. plain_line TyBandwidth. Qed.
Lemma version_line_iff : forall v n l, parse_sdp_line (lit "v=" ++ v) n = Ok l <->
  version_value v 0 /\ l = {| l_number := n; l_type := TyVersion 0; l_text := lit "v=" ++ v |}.
Proof.
  intros v n l.
  assert (Q : parse_sdp_line (lit "v=" ++ v) n = Ok l <->
    exists x, version_value v x /\ l = {| l_number := n; l_type := TyVersion x; l_text := lit "v=" ++ v |})
    by plain_line TyVersion.
  rewrite Q. split.
  - intros (x & H & ->). assert (x = 0) by (destruct H as (t & _ & _ & ->); reflexivity). subst x. auto.
  - intros [H ->]. exists 0. auto.
Qed.

(** ** Attributes given by their name and value *)
Lemma a_line : forall x n l, parse_sdp_line (97 :: 61 :: x) n = Ok l <->
  exists a, attr_from_str (trim x) = Ok a /\
    l = {| l_number := n; l_type := TyAttribute a; l_text := 97 :: 61 :: x |}.
Proof.
  intros x n l. unfold parse_sdp_line.
  assert (C : contains c_eq (97 :: 61 :: x) = true) by (apply contains_In; right; left; reflexivity).
  rewrite C. cbn [negb].
  assert (S : splitn 2 c_eq (97 :: 61 :: x) = [[97]; x]).
  { apply (proj1 (cut_splitn2 61 _ [97] x)). split; [reflexivity|]. intros [K|[]]. discriminate. }
  rewrite S. cbv zeta. change (trim [97]) with [97]. change (1 <? byte_len [97]) with false.
  cbn [is_empty]. cbv iota. change (to_lower [97]) with [97].
  change (str_eqb [97] (lit "s")) with false. cbn [negb]. rewrite andb_true_r.
  change (parse_value [97] (trim x) x) with (parse_attribute (trim x)).
  unfold parse_attribute. rewrite trim_idem.
  destruct (is_empty (trim x)) eqn:Em.
  - split; [discriminate|]. intros (a & H & _). destruct (trim x); discriminate.
  - destruct (attr_from_str (trim x)) as [a| |]; cbn [bind]; split.
    + intro H. inv H. eauto.
    + intros (b & H & ->). inv H. reflexivity.
    + discriminate.
    + intros (b & H & _). discriminate.
    + discriminate.
    + intros (b & H & _). discriminate.
Qed.
Lemma trim_name : forall name v, starts_ok name -> ~ In 58 name ->
  trim (name ++ 58 :: v) = name ++ 58 :: trim_end v.
Proof.
  intros name v Sn N. destruct (trim_end_suffix v) as (w & Ev & W).
  assert (Q : name ++ 58 :: v = [] ++ (name ++ 58 :: trim_end v) ++ w)
    by (cbn [app]; rewrite <- app_assoc; cbn [app]; rewrite <- Ev; reflexivity).
  symmetry. apply core_trim. exists [], w. split; [exact Q|]. split; [constructor|].
  split; [apply blank_forallb, W|]. right. split.
  - destruct Sn as (c & x & -> & Wc). exists c, (x ++ 58 :: trim_end v). auto.
  - destruct (trim_end_cases v) as [K|K].
    + rewrite K. exists 58, name. split; [reflexivity|reflexivity].
    + destruct K as (x & c & -> & Wc). exists c, (name ++ 58 :: x). rewrite <- app_assoc. auto.
Qed.
Lemma attr_line : forall name p, assoc_str name attr_parsers = Some p ->
  mem_str name flag_names = false -> to_lower name = name -> contains 58 name = false ->
  starts_ok name -> forall v n l,
  (parse_sdp_line (lit "a=" ++ name ++ 58 :: v) n = Ok l <->
   exists a, p (trim v) = Ok a /\
     l = {| l_number := n; l_type := TyAttribute a; l_text := lit "a=" ++ name ++ 58 :: v |}).
Proof.
  intros name p A F L C Sn v n l. cbn [app]. rewrite a_line. apply contains_not_In in C.
  rewrite trim_name by assumption. unfold attr_from_str.
  assert (S : splitn 2 c_colon (name ++ 58 :: trim_end v) = [name; trim_end v])
    by (apply (proj1 (cut_splitn2 58 _ _ _)); split; auto).
  rewrite S.
  cbn [idx nth_error bind List.length Nat.ltb Nat.leb]. cbn [andb]. rewrite L, F, A.
  assert (T : trim (trim_end v) = trim v).
  { destruct (trim_end_suffix v) as (w & Ev & W). rewrite Ev at 2.
    symmetry. exact (trim_pad [] (trim_end v) w eq_refl W). }
  rewrite T. reflexivity.
Qed.
Ltac known_line L :=
  rewrite attr_line; [|reflexivity..|eexists _, _; split; reflexivity];
  split; [ intros (a & H & ->); apply L in H; destruct H as (x & -> & H); exists x; split; [exact H | reflexivity]
         | intros (x & H & ->); eexists; split; [apply L; exists x; split; [reflexivity | exact H] | reflexivity] ].
Lemma fingerprint_line_iff : forall v n l, parse_sdp_line (lit "a=fingerprint:" ++ v) n = Ok l <->
  exists f, fingerprint_value v f /\
    l = {| l_number := n; l_type := TyAttribute (AFingerprint f); l_text := lit "a=fingerprint:" ++ v |}.
Proof.
  intros v n l. change (lit "a=fingerprint:" ++ v) with (lit "a=" ++ lit "fingerprint" ++ 58 :: v).
  known_line fingerprint_iff.
Qed.
Lemma fmtp_line_iff : forall v n l, parse_sdp_line (lit "a=fmtp:" ++ v) n = Ok l <->
  exists f, fmtp_value v f /\
    l = {| l_number := n; l_type := TyAttribute (AFmtp f); l_text := lit "a=fmtp:" ++ v |}.
Proof.
  intros v n l. change (lit "a=fmtp:" ++ v) with (lit "a=" ++ lit "fmtp" ++ 58 :: v).
  known_line fmtp_iff.
Qed.
Lemma simulcast_line_iff : forall v n l, parse_sdp_line (lit "a=simulcast:" ++ v) n = Ok l <->
  exists f, simulcast_value v f /\
    l = {| l_number := n; l_type := TyAttribute (ASimulcast f); l_text := lit "a=simulcast:" ++ v |}.
Proof.
  intros v n l. change (lit "a=simulcast:" ++ v) with (lit "a=" ++ lit "simulcast" ++ 58 :: v).
  known_line simulcast_iff.
Qed.

(** ** Documents *)
Lemma reads_mean : forall ls n ts, Reads n ls ts [] -> lines_mean ls ts.
Proof.
  induction ls as [|x ls IH]; intros n ts H; inversion H; subst.
  - constructor.
  - apply lines_mean_blank; [assumption|]. eapply IH; eassumption.
  - match goal with K : parse_sdp_line _ _ = Ok _ |- _ => apply line_fwd in K; destruct K as (_ & _ & K) end.
    apply lines_mean_line; [assumption..|]. eapply IH; eassumption.
Qed.
Lemma mean_reads : forall ls ts, lines_mean ls ts -> Forall (fun x => short (List.length x)) ls ->
  forall n, Reads n ls ts [].
Proof.
  induction 1 as [|x ls ts B H IH|x ls ty ts B M H IH]; intros F n.
  - constructor.
  - inversion F; subst. apply Reads_blank; auto.
  - inversion F as [|? ? Sx F']; subst.
    pose proof (line_bwd x n ty) as P.
    apply (Reads_line n x ls ts [] {| l_number := n; l_type := ty; l_text := x |}); [exact B| |apply IH, F'].
    apply P; [|exact M]. destruct ty as [[]| | | | | | |]; try exact I. exact Sx.
Qed.
Lemma strict_document : forall d s, doc_ok d -> short (List.length (doc_text d)) ->
  (parse_sdp (doc_text d) true = Ok s <->
   51 <= byte_len (doc_text d) /\ s_warnings s = [] /\
   exists ts, lines_mean (doc_lines d) ts /\ (4 <= List.length ts)%nat /\ Assembles ts s /\ structural s).
Proof.
  intros d s D L. rewrite document. rewrite (lines_doc d D).
  assert (F : Forall (fun x => short (List.length x)) (doc_lines d)).
  { apply Forall_forall. intros x I. rewrite <- (lines_doc d D) in I. apply lines_length in I.
    unfold short in *. lia. }
  split.
  - intros (B & ts & ws & R & W & Ew & R4 & A & S). specialize (Ew eq_refl). subst ws.
    rewrite Ew in *. split; [exact B|]. split; [reflexivity|]. exists ts. split; [|auto].
    eapply reads_mean; eassumption.
  - intros (B & W & ts & M & R4 & A & S). split; [exact B|]. exists ts, []. split; [apply mean_reads; assumption|].
    split; [exact W|]. auto.
Qed.

(** ** Fingerprints *)
Lemma hex_pair_show : forall n, n <= 255 -> pad0 2 (show_HEX n) = hex_pair n.
Proof.
  assert (Q : forallb (fun k => str_eqb (pad0 2 (show_HEX (N.of_nat k))) (hex_pair (N.of_nat k))) (seq 0 256) = true)
    by (vm_compute; reflexivity).
  intros n H. rewrite forallb_forall in Q. specialize (Q (N.to_nat n)).
  rewrite N2Nat.id in Q. apply str_eqb_eq, Q. apply in_seq. lia.
Qed.
Lemma hex_pair_value : forall n, n <= 255 -> byte_len (hex_pair n) = 2 /\ hex_numeral 255 (hex_pair n) n.
Proof.
  intros n H. split.
  - assert (Q : forallb (fun k => byte_len (hex_pair (N.of_nat k)) =? 2) (seq 0 256) = true)
      by (vm_compute; reflexivity).
    rewrite forallb_forall in Q. specialize (Q (N.to_nat n)). rewrite N2Nat.id in Q.
    apply N.eqb_eq, Q. apply in_seq. lia.
  - apply hex_numeral_iff. rewrite <- hex_pair_show by exact H. apply parse_show_HEX. exact H.
Qed.
Lemma hex_pair_chars : forall n, forallb hex_char (hex_pair n) = true \/ 255 < n.
Proof.
  intro n. destruct (N.ltb_spec 255 n) as [K|K]; [now right|]. left.
  rewrite <- hex_pair_show by exact K. apply pad0_chars; [reflexivity | apply show_HEX_chars].
Qed.
Lemma fingerprint_printed : forall f, List.length (fp_bytes f) = hash_octets (fp_hash f) ->
  Forall (fun b => b <= 255) (fp_bytes f) ->
  show_attr (AFingerprint f) =
    lit "fingerprint:" ++ of_string (hash_name (fp_hash f)) ++ [32] ++ join [58] (map hex_pair (fp_bytes f)) /\
  fingerprint_value (of_string (hash_name (fp_hash f)) ++ [32] ++ join [58] (map hex_pair (fp_bytes f))) f.
Proof.
  intros f L F.
  assert (Em : map (fun b => pad0 2 (show_HEX b)) (fp_bytes f) = map hex_pair (fp_bytes f)).
  { apply map_ext_in. intros b Ib. apply hex_pair_show. rewrite Forall_forall in F. auto. }
  split.
  - unfold show_attr, attr_to_string, show_fingerprint. rewrite Em.
    destruct (fp_hash f); reflexivity.
  - assert (Ne : fp_bytes f <> []) by (intro K; rewrite K in L; destruct (fp_hash f); discriminate).
    assert (C : Forall (fun t => contains 58 t = false) (map hex_pair (fp_bytes f))).
    { apply Forall_forall. intros t It. apply in_map_iff in It. destruct It as (b & <- & Ib).
      rewrite Forall_forall in F. specialize (F _ Ib).
      destruct (hex_pair_chars b) as [K|K]; [|lia]. apply (class_not_contains _ _ _ K). reflexivity. }
    exists (of_string (hash_name (fp_hash f))), (join [58] (map hex_pair (fp_bytes f))), (map hex_pair (fp_bytes f)).
    split; [|split; [reflexivity | split; [|split]]].
    + apply words_sws. rewrite sws_cons_sp. 2: { split; destruct (fp_hash f); (discriminate || reflexivity). }
      f_equal. apply sws_one. split.
      * destruct (fp_bytes f) as [|b [|b2 l]]; [congruence| |]; discriminate.
      * apply class_no_ws with (p := fun c => hex_char c || (c =? 58)).
        -- apply join_chars; [reflexivity|]. apply Forall_forall. intros t It. apply in_map_iff in It.
           destruct It as (b & <- & Ib). rewrite Forall_forall in F. specialize (F _ Ib).
           destruct (hex_pair_chars b) as [K|K]; [|lia]. eapply forallb_weaken; [|exact K].
           intros x Hx. rewrite Hx. reflexivity.
        -- intros c Hc. apply orb_true_iff in Hc. destruct Hc as [Hc|Hc]; [apply hex_not_ws, Hc|].
           apply N.eqb_eq in Hc. subst c. reflexivity.
    + apply fields_split. apply split_join; [|exact C]. destruct (fp_bytes f); [congruence | discriminate].
    + clear - F. induction (fp_bytes f) as [|b l IH]; [constructor|]. inversion F; subst.
      cbn [map]. constructor; [apply hex_pair_value; assumption | apply IH; assumption].
    + rewrite map_length. exact L.
Qed.
Lemma fingerprint_reparsed : forall f n, List.length (fp_bytes f) = hash_octets (fp_hash f) ->
  Forall (fun b => b <= 255) (fp_bytes f) ->
  exists text, parse_sdp_line (lit "a=" ++ show_attr (AFingerprint f)) n =
    Ok {| l_number := n; l_type := TyAttribute (AFingerprint f); l_text := text |}.
Proof.
  intros f n L F. destruct (fingerprint_printed f L F) as [P V].
  eexists. rewrite P.
  match goal with |- parse_sdp_line (lit "a=" ++ lit "fingerprint:" ++ ?x) _ = _ =>
    apply (proj2 (fingerprint_line_iff x n _)) end.
  exists f. split; [exact V | reflexivity].
Qed.

(** ** Telephone events *)
Lemma tones_dec : forall t, tones t \/ ~ tones t.
Proof.
  intro t. destruct (forallb dtmf_tone_ok (split c_comma t)) eqn:K.
  - left. apply tones_iff, K.
  - right. intro H. apply tones_iff in H. congruence.
Qed.
Lemma numeral_no : forall m s n c, numeral m s n -> ~ is_digit c -> c <> 43 -> ~ In c s.
Proof. intros m s n c H D P I. destruct (numeral_chars _ _ _ H _ I); contradiction. Qed.
Lemma numeral_ne : forall m s n, numeral m s n -> exists c x, s = c :: x /\ is_ws c = false.
Proof.
  intros m s n H. destruct s as [|c x]; [destruct (numeral_nonempty _ _ H)|].
  exists c, x. split; [reflexivity|].
  destruct (numeral_chars _ _ _ H c (or_introl eq_refl)) as [D|D].
  - unfold is_digit in D. unfold is_ws. lia.
  - subst c. reflexivity.
Qed.
Lemma core_two : forall pt n m block, numeral m pt n -> core block block -> block <> [] ->
  core (pt ++ 32 :: block) (pt ++ 32 :: block).
Proof.
  intros pt n m block Hp C Ne. exists [], []. split; [rewrite app_nil_r; reflexivity|].
  split; [constructor|]. split; [constructor|]. right.
  destruct (numeral_ne _ _ _ Hp) as (c & x & -> & Wc).
  split; [exists c, (x ++ 32 :: block); auto|].
  destruct C as (_ & _ & _ & _ & _ & [K|[_ (d & y & Ey & Wd)]]); [congruence|].
  exists d, ((c :: x) ++ 32 :: y). rewrite Ey at 1. rewrite <- app_assoc. auto.
Qed.
Lemma fmtp_block_line : forall pt n block k l, numeral u8_max pt n -> core block block -> block <> [] ->
  (parse_sdp_line (lit "a=fmtp:" ++ pt ++ 32 :: block) k = Ok l <->
   exists p, fmtp_block_value block p /\
     l = {| l_number := k;
            l_type := TyAttribute (AFmtp {| fmtp_payload_type := n; fmtp_parameters := p |});
            l_text := lit "a=fmtp:" ++ pt ++ 32 :: block |}).
Proof.
  intros pt n block k l Hp C Ne. rewrite fmtp_line_iff.
  assert (Ct : cut 32 (pt ++ 32 :: block) pt block).
  { split; [reflexivity|]. eapply numeral_no; [exact Hp|unfold is_digit; lia|lia]. }
  split.
  - intros (f & (t & pt' & b' & Ct' & Cu & Hn & V) & ->).
    apply core_trim in Ct'. pose proof (core_two _ _ _ _ Hp C Ne) as K. apply core_trim in K.
    rewrite <- K in Ct'. subst t. destruct (cut_fun _ _ _ _ _ _ Ct Cu) as [-> ->].
    exists (fmtp_parameters f). split; [exact V|].
    rewrite (numeral_fun _ _ _ _ _ Hp Hn). destruct f; reflexivity.
  - intros (p & V & ->). eexists. split; [|reflexivity].
    exists (pt ++ 32 :: block), pt, block. split; [eapply core_two; eassumption|]. auto.
Qed.
Lemma tones_line : forall pt n block k, numeral u8_max pt n -> core block block -> block <> [] ->
  ~ In 61 block -> ~ In 47 block ->
  forall x, (tones block /\ x = block) \/ (~ tones block /\ x = lit "0-15") ->
  parse_sdp_line (lit "a=fmtp:" ++ pt ++ 32 :: block) k =
    Ok {| l_number := k;
          l_type := TyAttribute (AFmtp {| fmtp_payload_type := n;
                                          fmtp_parameters := set_dtmf_tones x fmtp_defaults |});
          l_text := lit "a=fmtp:" ++ pt ++ 32 :: block |}.
Proof.
  intros pt n block k Hp C Ne N1 N2 x Hx. rewrite (fmtp_block_line pt n) by assumption.
  eexists. split; [|reflexivity]. right. right. split; [exact N1|]. split; [exact N2|].
  split; [reflexivity|]. exact Hx.
Qed.

(** ** Flags and values *)
Lemma core_nil : forall t, core [] t -> t = [].
Proof. intros t H. apply core_trim in H. exact H. Qed.
Lemma words_blank : forall v l, blank v -> words v l -> l = [].
Proof.
  intros v l B H. apply words_sws in H. subst l. apply blank_forallb in B.
  pose proof (sws_app_ws_start v [] B) as K. rewrite app_nil_r in K. exact K.
Qed.
Lemma core_blank : forall v t, blank v -> core v t -> t = [].
Proof. intros v t B H. apply core_trim in H. subst t. apply trim_all_ws, blank_forallb, B. Qed.
Lemma parts_nil : forall n a b r, ~ space_parts n [] (a :: b :: r).
Proof.
  intros n a b r H. apply parts_splitn in H. destruct H as [N H].
  destruct n as [|[|n]]; [congruence|discriminate|discriminate].
Qed.
Lemma cut_nil : forall c a b, ~ cut c [] a b.
Proof. intros c a b [H _]. destruct a; discriminate. Qed.
Lemma tokens_nil : forall sep a b r, ~ bracket_tokens sep [] (a :: b :: r).
Proof.
  intros sep a b r (g & l & F & C & _ & M). apply fields_split in F.
  change (split sep []) with [@nil N] in F.
  destruct g as [|g1 [|g2 g]]; try discriminate.
  inversion C as [|? ? C1 C']; subst. inversion C' as [|? ? C2 _]; subst.
  apply closed_nonempty in C1, C2. apply (f_equal (@List.length _)) in F.
  cbn [List.concat] in F. rewrite !app_length in F.
  destruct g1; [congruence|]. destruct g2; [congruence|]. cbn [List.length] in F. lia.
Qed.
Lemma attr_value_blank : forall v a, (forall x, parse_f64 [] <> Ok x) -> blank v -> ~ attr_value v a.
Proof.
  intros v a F64 B H.
  assert (W : forall l, words v l -> l = []) by (intros l; apply words_blank, B).
  assert (C : forall t, core v t -> t = []) by (intros t; apply core_blank, B).
  destruct a; cbn [attr_value] in H; try exact H.
  - destruct H as (? & ? & ? & ? & ? & ? & ? & ? & ? & ? & K & _). apply W in K. discriminate.
  - destruct H as (t & r & x & K & F & _). apply C in K. subst t. apply fields_two_cut in F.
    exact (cut_nil _ _ _ F).
  - destruct H as (? & ? & ? & K & _). apply W in K. discriminate.
  - destruct H as (? & ? & ? & K & _). apply W in K. discriminate.
  - destruct H as (t & ? & ? & K & F & _). apply C in K. subst t. exact (cut_nil _ _ _ F).
  - destruct H as (t & K & F & _). apply C in K. subst t. exact (F64 _ F).
  - destruct H as (? & K & _). apply W in K. discriminate.
  - destruct H as (K & F). apply W in K. congruence.
  - destruct H as (t & K & F). apply C in K. subst t. exact (numeral_nonempty _ _ F).
  - destruct H as [K F]. apply C in K. congruence.
  - destruct H as [K F]. apply C in K. congruence.
  - destruct H as [K F]. apply C in K. congruence.
  - destruct H as (t & ? & ? & ? & ? & ? & ? & ? & K & F & _). apply C in K. subst t. exact (tokens_nil _ _ _ _ F).
  - destruct H as [K F]. apply C in K. congruence.
  - destruct H as (t & K & F). apply C in K. subst t. exact (numeral_nonempty _ _ F).
  - destruct H as (t & K & F). apply C in K. subst t. exact (numeral_nonempty _ _ F).
  - destruct H as [K F]. apply C in K. congruence.
  - destruct H as (? & K & _). apply W in K. discriminate.
  - apply W in H. discriminate.
  - destruct H as (t & K & F). apply C in K. subst t. exact (numeral_nonempty _ _ F).
  - destruct H as (t & ? & ? & K & F & _). apply C in K. subst t. exact (parts_nil _ _ _ _ F).
  - destruct H as (? & ? & ? & ? & K & _). apply W in K. discriminate.
  - destruct H as (? & ? & ? & ? & ? & K & _). apply W in K. discriminate.
  - destruct H as (? & ? & K & _). apply W in K. discriminate.
  - destruct H as (t & ? & ? & ? & K & F & _). apply C in K. subst t. exact (parts_nil _ _ _ _ F).
  - destruct H as (? & ? & ? & K & _). apply W in K. discriminate.
  - destruct H as (t & K & F). apply C in K. subst t. exact (numeral_nonempty _ _ F).
  - destruct H as (t & K & F). apply C in K. subst t. unfold means in F.
    apply lower_iff in F; match goal with z : setup |- _ => destruct z end; (discriminate || reflexivity).
  - destruct H as (? & ? & ? & K & _). apply W in K. discriminate.
  - destruct H as (t & K & F). apply C in K. subst t. destruct F as [(_ & F & _)|(? & ? & F & _)].
    + exact (numeral_nonempty _ _ F).
    + exact (cut_nil _ _ _ F).
  - destruct H as (? & ? & K & _). apply W in K. discriminate.
Qed.
Lemma means_fun : forall s a b, lower_word (of_string a) = true -> lower_word (of_string b) = true ->
  means s a -> means s b -> a = b.
Proof.
  intros s a b La Lb Ha Hb. apply means_iff in Ha; [|exact La]. apply means_iff in Hb; [|exact Lb].
  apply of_string_inj. congruence.
Qed.
(** What an attribute line with this name can be. *)
Lemma flag_line : forall a name n, flag_attribute a -> means name (sdp_name a) -> ~ In 58 name ->
  core name name ->
  parse_sdp_line (lit "a=" ++ name) n =
    Ok {| l_number := n; l_type := TyAttribute a; l_text := lit "a=" ++ name |} /\
  forall v l, parse_sdp_line (lit "a=" ++ name ++ 58 :: v) n <> Ok l.
Proof.
  intros a name n Fa M N C. split.
  - cbn [app]. apply line_bwd.
    + destruct a; try exact I; contradiction.
    + apply means_plain; [reflexivity | discriminate|]. split; [reflexivity|]. cbn [type_value].
      exists name. split; [exact C|]. left. split; [exact N|]. split; [exact M|]. left. exact Fa.
  - intros v l H. cbn [app] in H. apply line_fwd in H. destruct H as (_ & _ & H).
    apply means_plain in H; [|reflexivity | discriminate]. destruct H as [Sl H].
    destruct (l_type l) as [b| | | | | | |]; try discriminate Sl. cbn [type_value] in H.
    destruct H as (t & Ct & H). apply core_trim in Ct.
    assert (Hn : starts_ok name).
    { destruct C as (w1 & w2 & _ & _ & _ & [K|[(c & x & Ec & Wc) _]]).
      - subst name. apply means_iff in M; [|apply names_lower]. destruct a; discriminate.
      - exists c, x. auto. }
    rewrite trim_name in Ct by assumption. subst t.
    destruct H as [(Nc & _)|(x & y & Cu & Mx & Va)].
    + apply Nc. apply in_or_app. right. now left.
    + assert (Q : cut 58 (name ++ 58 :: trim_end v) name (trim_end v)) by (split; auto).
      destruct (cut_fun _ _ _ _ _ _ Q Cu) as [-> _].
      assert (K : sdp_name a = sdp_name b) by (eapply means_fun; try apply names_lower; eassumption).
      destruct a; try contradiction; destruct b; try discriminate K; exact Va.
Qed.
Lemma value_line : forall a name n v l, ~ flag_attribute a -> means name (sdp_name a) -> ~ In 58 name ->
  core name name -> (forall x, parse_f64 [] <> Ok x) -> blank v ->
  parse_sdp_line (lit "a=" ++ name) n <> Ok l /\
  parse_sdp_line (lit "a=" ++ name ++ 58 :: v) n <> Ok l.
Proof.
  intros a name n v l Fa M N C F64 B. split; intro H; cbn [app] in H; apply line_fwd in H;
    destruct H as (_ & _ & H); (apply means_plain in H; [|reflexivity | discriminate]);
    destruct H as [Sl H]; destruct (l_type l) as [b| | | | | | |]; try discriminate Sl;
    cbn [type_value] in H; destruct H as (t & Ct & H); apply core_trim in Ct.
  - apply core_trim in C. rewrite <- C in Ct. subst t.
    destruct H as [(_ & Mb & D)|(x & y & Cu & _)].
    + assert (K : sdp_name a = sdp_name b) by (eapply means_fun; try apply names_lower; eassumption).
      destruct D as [D|D].
      * apply Fa. destruct a; destruct b; try discriminate K; exact D.
      * eapply attr_value_blank; [exact F64| |exact D]. constructor.
    + apply N. apply cut_In in Cu. exact Cu.
  - assert (Hn : starts_ok name).
    { destruct C as (w1 & w2 & _ & _ & _ & [K|[(c & x & Ec & Wc) _]]).
      - subst name. apply means_iff in M; [|apply names_lower]. destruct a; discriminate.
      - exists c, x. auto. }
    rewrite trim_name in Ct by assumption. subst t.
    destruct H as [(Nc & _)|(x & y & Cu & Mx & Va)].
    + apply Nc. apply in_or_app. right. now left.
    + assert (Q : cut 58 (name ++ 58 :: trim_end v) name (trim_end v)) by (split; auto).
      destruct (cut_fun _ _ _ _ _ _ Q Cu) as [-> <-].
      eapply attr_value_blank; [exact F64| |exact Va].
      destruct (trim_end_suffix v) as (w & Ev & _). rewrite Ev in B. apply Forall_app in B. apply B.
Qed.

(** ** Simulcast *)
Lemma simulcast_words : forall v l s, words v l -> (simulcast_value v s <->
  exists d first more dir l1 l2, l = d :: first :: more /\ is_word d (single_direction_name dir) /\
    simulcast_list_value first l1 /\
    match more with
    | [] => l2 = []
    | d2 :: second :: _ =>
        is_word d2 (single_direction_name (match dir with Send => Recv | Recv => Send end)) /\
        simulcast_list_value second l2
    | _ => False
    end /\
    match dir with
    | Send => sim_send s = l1 /\ sim_receive s = l2
    | Recv => sim_send s = l2 /\ sim_receive s = l1
    end).
Proof.
  intros v l s W. apply words_sws in W. split.
  - intros (d & f & m & W' & dir & l1 & l2 & H). apply words_sws in W'.
    exists d, f, m, dir, l1, l2. split; [congruence | exact H].
  - intros (d & f & m & dir & l1 & l2 & -> & H). exists d, f, m. split; [apply words_sws, W|].
    exists dir, l1, l2. exact H.
Qed.
Lemma simulcast_swap : forall v w a b s, words v [lit "send"; a; lit "recv"; b] ->
  words w [lit "recv"; b; lit "send"; a] -> (simulcast_value v s <-> simulcast_value w s).
Proof.
  intros v w a b s Wv Ww. rewrite (simulcast_words _ _ _ Wv), (simulcast_words _ _ _ Ww). split.
  - intros (d & f & m & dir & l1 & l2 & Eq & D & H1 & H2 & H3). injection Eq as <- <- <-.
    destruct dir; [|discriminate D]. destruct H2 as [_ H2].
    exists (lit "recv"), b, [lit "send"; a], Recv, l2, l1.
    split; [reflexivity|]. split; [reflexivity|]. split; [exact H2|]. split; [split; [reflexivity | exact H1]|].
    tauto.
  - intros (d & f & m & dir & l1 & l2 & Eq & D & H1 & H2 & H3). injection Eq as <- <- <-.
    destruct dir; [discriminate D|]. destruct H2 as [_ H2].
    exists (lit "send"), a, [lit "recv"; b], Send, l2, l1.
    split; [reflexivity|]. split; [reflexivity|]. split; [exact H2|]. split; [split; [reflexivity | exact H1]|].
    tauto.
Qed.
Lemma simulcast_swap_line : forall v w a b s n, words v [lit "send"; a; lit "recv"; b] ->
  words w [lit "recv"; b; lit "send"; a] ->
  (parse_sdp_line (lit "a=simulcast:" ++ v) n =
     Ok {| l_number := n; l_type := TyAttribute (ASimulcast s); l_text := lit "a=simulcast:" ++ v |} <->
   parse_sdp_line (lit "a=simulcast:" ++ w) n =
     Ok {| l_number := n; l_type := TyAttribute (ASimulcast s); l_text := lit "a=simulcast:" ++ w |}).
Proof.
  intros v w a b s n Wv Ww. rewrite !simulcast_line_iff. pose proof (simulcast_swap v w a b s Wv Ww) as Q.
  split; intros (f & H & Eq); injection Eq as <-; exists s; (split; [|reflexivity]); apply Q, H.
Qed.
Lemma simulcast_twice : forall v d a b more n l, words v (d :: a :: d :: b :: more) ->
  parse_sdp_line (lit "a=simulcast:" ++ v) n <> Ok l.
Proof.
  intros v d a b more n l W H. apply simulcast_line_iff in H. destruct H as (s & H & _).
  apply (simulcast_words _ _ _ W) in H. destruct H as (d' & f & m & dir & l1 & l2 & Eq & D & H1 & H2 & H3).
  inv Eq. destruct H2 as [D2 _]. unfold is_word in *. rewrite D in D2. destruct dir; discriminate.
Qed.

(** ** Addresses *)
Lemma address_printed : ext_ok E -> forall a, ip_ok a -> address_from_str (show_ip a) = Ok (Ip a).
Proof.
  intros X [n|n] H; unfold address_from_str; cbn [show_ip].
  - rewrite show_ip4_no_colon. rewrite (host_show_ip4 E X) by exact H. reflexivity.
  - rewrite show_ip6_colon. change (show_ip6 n) with (show_ip (V6 n)). rewrite parse_show_ip by exact H. reflexivity.
Qed.
Lemma typed_printed : ext_ok E -> forall a, ip_ok a ->
  typed_address_try_from (ip_addr_type a) (show_ip a) = Ok (TIp a).
Proof.
  intros X a H. unfold typed_address_try_from. rewrite (address_printed X a H). cbn [bind].
  destruct a; reflexivity.
Qed.
Lemma connection_printed : ext_ok E -> forall a n, ip_ok a ->
  parse_sdp_line (lit "c=" ++ show_typed_address (TIp a)) n =
    Ok {| l_number := n;
          l_type := TyConnection {| conn_address := TIp a; conn_ttl := None; conn_amount := None |};
          l_text := lit "c=" ++ show_typed_address (TIp a) |}.
Proof.
  intros X a n H. apply connection_line_iff. eexists. split; [|reflexivity].
  exists (lit "IN"), (show_addr_type (ip_addr_type a)), (show_ip a), (ip_addr_type a).
  split.
  - apply words_sws. unfold show_typed_address. cbn [typed_addr_type].
    change (lit "IN " ++ ?x) with (lit "IN" ++ sp ++ x).
    rewrite sws_cons_sp by (split; [discriminate | reflexivity]). f_equal.
    rewrite sws_cons_sp by (destruct a; split; (discriminate || reflexivity)). f_equal.
    apply sws_one, show_ip_token.
  - split; [apply means_upper_iff; reflexivity|].
    split; [apply means_upper_iff; destruct a; reflexivity|].
    exists (show_ip a), []. split; [|split; [apply typed_iff, typed_printed; assumption | auto]].
    constructor. apply contains_not_In.
    apply (class_not_contains _ _ _ (show_ip_chars a)). reflexivity.
Qed.

(** ** Numbers *)
Lemma numeral_printed : forall max n, n <= max -> numeral max (show_N n) n.
Proof. intros max n H. apply numeral_iff, parse_show_N, H. Qed.
Lemma number_lines : forall (v : str) (n : nat) (l : sdp_line) (c : N -> attr) name max,
  In (c, name, max) [(AMaxMessageSize, lit "max-message-size", u64_max); (APtime, lit "ptime", u64_max);
                     (AMaxPtime, lit "maxptime", u64_max); (ASctpPort, lit "sctp-port", 65535);
                     (AIcePacing, lit "ice-pacing", 9999999999)] ->
  (parse_sdp_line (lit "a=" ++ name ++ 58 :: v) n = Ok l <->
   exists x, number_value max v x /\
     l = {| l_number := n; l_type := TyAttribute (c x); l_text := lit "a=" ++ name ++ 58 :: v |}).
Proof.
  intros v n l c name max H. destruct H as [H|[H|[H|[H|[H|[]]]]]]; inv H.
  - known_line (u64_value_iff AMaxMessageSize).
  - known_line (u64_value_iff APtime).
  - known_line (u64_value_iff AMaxPtime).
  - known_line sctp_port_iff.
  - known_line ice_pacing_iff.
Qed.
End WithExt.

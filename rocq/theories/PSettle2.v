(** * Lemmas for C55: fmtp and rid *)
From Coq Require Import List NArith ZArith Lia Bool Ascii String.
From Coq Require Import ZifyBool ZifyNat ZifyN.
From Verif Require Import Str Num Net Types Ext Show Address AttrParse Media Session SpecApi SpecDoc SpecVal SpecItems SpecPrint SpecSettle.
From Verif Require Import StrLemmas NumLemmas NetLemmas PPanic PDoc PDoc2 PDoc3 PDoc4 PVal PVal2 PVal8 PVal9 PVal10 PVal11.
From Verif Require Import PVal5 PPrint PPrint2 PPrint3 PPrint4 PPrint5 PPrint6 PPrint7 PPrint8 PPrint9 PPrint10 PPrint11 PSettle.
Import ListNotations.
Open Scope N_scope.
Open Scope list_scope.

Section WithExt.
Context {E : Ext}.
Context (X : ext_ok E).

(** ** fmtp *)
Lemma fmtp_other : forall f g q, attr_range (AFmtp f) -> attr_value (trim_end (show_fmtp f)) (AFmtp g) ->
  fmtp_range q -> fmtp_wf q -> ~ fmtp_lossy q ->
  trim_end (show_fmtp_params (fmtp_parameters f)) = show_fmtp_params q -> show_fmtp_params (fmtp_parameters f) <> [] ->
  fmtp_parameters g = q /\ show_fmtp g = trim_end (show_fmtp f).
Proof.
  intros f h q R V Rq Wq Lq T Np. cbn [attr_value] in V. apply (fmtp_value_end _ (show_fmtp f)) in V.
  2:{ destruct (trim_end_cases (show_fmtp f)) as [K|K]; [rewrite K; reflexivity | apply trim_end_id, K]. }
  set (g := {| fmtp_payload_type := fmtp_payload_type f; fmtp_parameters := q |}).
  destruct (fmtp_prints g (conj (proj1 R) Rq) Wq Lq) as (_ & Sg & Vg). cbn [attr_value] in Vg.
  assert (Tt : trim_end (show_fmtp f) = show_fmtp g).
  { unfold show_fmtp. cbn [fmtp_parameters fmtp_payload_type g]. set (p := fmtp_parameters f) in *.
    destruct (show_fmtp_params q) as [|c t] eqn:Kq.
    { exfalso. apply (ends_nonempty _ Sg). unfold show_fmtp. cbn [g fmtp_parameters]. rewrite Kq. reflexivity. }
    rewrite (proj2 (is_empty_false _) Np). cbn [is_empty].
    assert (Nt : trim_end (show_fmtp_params p) <> []) by (rewrite T; discriminate).
    rewrite <- T. rewrite !app_assoc. rewrite (trim_end_app _ (show_fmtp_params p) Nt). reflexivity. }
  assert (Q : h = g).
  { apply (fmtp_fun (show_fmtp f)); [exact V|]. apply (fmtp_value_end (show_fmtp g)); [|exact Vg]. rewrite Tt. apply trim_end_id.
    destruct (trim_end_cases (show_fmtp f)) as [K|K]; [|rewrite <- Tt; exact K]. exfalso. apply (ends_nonempty _ Sg). congruence. }
  subst h. split; [reflexivity | symmetry; exact Tt].
Qed.
Lemma fmtp_settles : forall f g, attr_range (AFmtp f) -> attr_wf (AFmtp f) -> fmtp_lossy (fmtp_parameters f) ->
  show_fmtp f <> [] -> attr_value (trim_end (show_fmtp f)) (AFmtp g) ->
  shrinks (show_fmtp f) (show_fmtp g) /\ ~ fmtp_lossy (fmtp_parameters g).
Proof.
  intros f g R W L Ne V. set (p := fmtp_parameters f) in *.
  assert (Np : show_fmtp_params p <> []).
  { intro K. apply Ne. unfold show_fmtp. fold p. rewrite K. reflexivity. }
  assert (Ot : forall q, fmtp_range q -> fmtp_wf q -> ~ fmtp_lossy q -> trim_end (show_fmtp_params p) = show_fmtp_params q ->
    shrinks (show_fmtp f) (show_fmtp g) /\ ~ fmtp_lossy (fmtp_parameters g)).
  { intros q Rq Wq Lq T. destruct (fmtp_other f g q R V Rq Wq Lq T Np) as [Q1 Q2]. rewrite Q1, Q2. split; [apply shr_trim | exact Lq]. }
  destruct (rtx p) as [r|] eqn:Kr.
  - destruct R as [R0 R]. fold p in R. pose proof R as Rr.
    destruct Rr as (_ & _ & _ & _ & _ & _ & _ & _ & _ & _ & _ & _ & _ & _ & _ & _ & _ & Rr). rewrite Kr in Rr.
    apply (Ot (set_rtx (Some r) fmtp_defaults)).
    + unfold fmtp_range. do 16 (split; [vm_compute; first [exact I | discriminate]|]). split; [constructor | exact Rr].
    + left. split; [reflexivity|]. split; [reflexivity | constructor].
    + intros [L'|[(r' & L1 & L2)|[L'|L']]]; [discriminate L' | | cbn in L'; lia | inversion L'].
      injection L1 as <-. apply L2. reflexivity.
    + assert (T : show_fmtp_params p = show_fmtp_params (set_rtx (Some r) fmtp_defaults)) by (unfold show_fmtp_params; rewrite Kr; reflexivity).
      rewrite T. apply trim_end_id.
      destruct (rtx_prints r (proj1 Rr) (proj2 Rr)) as [(c & x & K1 & K2) _]. exists x, c. split; [exact K1 | exact K2].
  - assert (Nu : unknown_tokens p <> []).
    { destruct L as [L|[(r & L1 & _)|[L|L]]].
      - exfalso. apply Np. rewrite L. vm_compute. reflexivity.
      - congruence.
      - destruct (unknown_tokens p); [cbn in L; lia | discriminate].
      - destruct (unknown_tokens p); [inversion L | discriminate]. }
    destruct W as [(W1 & W2 & W3)|[[W1 W2]|[W1 W2]]]; fold p in W1, W2; [|elim Nu; rewrite W2; reflexivity | elim Nu; rewrite W2; reflexivity].
    fold p in W3. destruct (merged_token _ _ Nu W3) as [M1 M2].
    apply (Ot (merged p)).
    + exact (proj2 R).
    + left. split; [exact W1|]. split; [exact W2|]. constructor; [exact M1 | constructor].
    + intros [L'|[(r' & L1 & L2)|[L'|L']]].
      * apply (f_equal unknown_tokens) in L'. discriminate L'.
      * change (rtx (merged p)) with (rtx p) in L1. congruence.
      * cbn in L'. lia.
      * inversion L' as [? ? B|? ? B]; [exact (trim_end_not_blank _ B) | inversion B].
    + apply merged_text; assumption.
Qed.

(** ** rid *)
Lemma numeral_fun : forall max s a b, numeral max s a -> numeral max s b -> a = b.
Proof.
  intros max s a b (d1 & S1 & N1 & F1 & -> & _) (d2 & S2 & N2 & F2 & -> & _).
  assert (P : forall ds, Forall is_digit ds -> forall x, ds <> 43 :: x).
  { intros ds F x ->. apply Forall_inv in F. unfold is_digit in F. lia. }
  destruct S1 as [S1|S1], S2 as [S2|S2].
  - congruence.
  - exfalso. apply (P _ F1 d2). congruence.
  - exfalso. apply (P _ F2 d1). congruence.
  - congruence.
Qed.
Lemma field_fun : forall (is : str -> Prop) ps max d a b, field_of is ps (numeral max) d a -> field_of is ps (numeral max) d b -> a = b.
Proof.
  intros is ps max d a b (v1 & G1 & _ & K1) (v2 & G2 & _ & K2). rewrite (given_fun _ _ _ _ G1 G2) in K1.
  destruct (last_of v2); [exact (numeral_fun _ _ _ _ K1 K2) | congruence].
Qed.
Definition dep_pairs (o : option str) : list (str * str) := pairs [(lit "depends", o)].
Lemma rid_params_read : forall p us o q d,
  (max_width p <= u32_max /\ max_height p <= u32_max /\ max_fps p <= u32_max /\ rid_max_fs p <= u32_max /\
   rid_max_br p <= u32_max /\ max_pps p <= u32_max) ->
  Forall (fun nv => ~ Exists (is_word (fst nv)) rid_names) us -> Forall (fun nv => ~ In 61 (fst nv)) us ->
  rid_params_value (map tok (pairs (rid_segs p) ++ us ++ dep_pairs o)) q d ->
  (max_width q = max_width p /\ max_height q = max_height p /\ max_fps q = max_fps p /\ rid_max_fs q = rid_max_fs p /\
   rid_max_br q = rid_max_br p /\ max_pps q = max_pps p) /\ rid_unknown q = map tok us /\
  match o with None => d = [] | Some t => fields 44 t d end.
Proof.
  intros p us o q d (R1 & R2 & R3 & R4 & R5 & R6) U1 U2 (ps & Cp & V1 & V2 & V3 & V4 & V5 & V6 & (vs & ds & G & Fd & Ed) & us' & O & Eu).
  assert (Q : ps = (pairs (rid_segs p) ++ us) ++ dep_pairs o).
  { apply (cuts_fun (map tok (pairs (rid_segs p) ++ us ++ dep_pairs o))); [exact Cp|]. rewrite <- app_assoc. apply tok_cut.
    apply Forall_app; split; [|apply Forall_app; split].
    - apply seg_fst_no. unfold rid_segs. repeat (constructor; [cbn [fst]; apply not_in_b; reflexivity|]). constructor.
    - exact U2.
    - apply seg_fst_no. constructor; [cbn [fst]; apply not_in_b; reflexivity | constructor]. }
  subst ps.
  assert (NU : forall n, In n rid_names -> Forall (fun nv => ~ is_word (fst nv) n) us).
  { intros n Hn. eapply Forall_impl; [|exact U1]. intros nv H K. apply H, Exists_exists. eauto. }
  assert (ND : forall n, n <> "depends"%string -> Forall (fun nv => ~ is_word (fst nv) n) (dep_pairs o)).
  { intros n Hn. destruct o; [|constructor]. constructor; [|constructor]. cbn [fst]. intro K. apply Hn.
    unfold is_word in K. apply PVal5.of_string_inj. symmetry. exact K. }
  assert (Num : forall name v w, In name rid_names -> name <> "depends"%string -> v <= u32_max ->
    flat_map (fun s => if str_eqb (fst s) (of_string name) then of_option (snd s) else []) (rid_segs p) = of_option (num_opt v 0) ->
    field_of (fun n => is_word n name) ((pairs (rid_segs p) ++ us) ++ dep_pairs o) (numeral u32_max) 0 w -> w = v).
  { intros name v w I Hn Hv Hs F. apply (field_fun _ _ _ _ _ _ F). apply num_printed; [|exact Hv]. rewrite <- app_assoc.
    apply (given_printed _ (fun x => str_eqb x (of_string name)) _ _ (num_opt v 0)); [apply word_test | exact Hs|].
    apply Forall_app; split; [apply NU, I | apply ND, Hn]. }
  split; [|split].
  - split; [apply (Num "max-width"%string); [cbn; auto 10 | discriminate | exact R1 | exact (app_nil_r _) | exact V1]|].
    split; [apply (Num "max-height"%string); [cbn; auto 10 | discriminate | exact R2 | exact (app_nil_r _) | exact V2]|].
    split; [apply (Num "max-fps"%string); [cbn; auto 10 | discriminate | exact R3 | exact (app_nil_r _) | exact V3]|].
    split; [apply (Num "max-fs"%string); [cbn; auto 10 | discriminate | exact R4 | exact (app_nil_r _) | exact V4]|].
    split; [apply (Num "max-br"%string); [cbn; auto 10 | discriminate | exact R5 | exact (app_nil_r _) | exact V5]|].
    apply (Num "max-pps"%string); [cbn; auto 10 | discriminate | exact R6 | exact (app_nil_r _) | exact V6].
  - assert (O' : others (fun n => Exists (is_word n) rid_names) ((pairs (rid_segs p) ++ us) ++ dep_pairs o) (us ++ [])).
    { apply others_app.
      - apply others_printed; [|exact U1]. unfold rid_segs, rid_names.
        repeat (constructor; [cbn [fst]; repeat (first [apply Exists_cons_hd; reflexivity | apply Exists_cons_tl])|]). constructor.
      - destruct o; [|constructor]. apply others_drop; [|constructor]. cbn. do 6 apply Exists_cons_tl. apply Exists_cons_hd. reflexivity. }
    rewrite (others_fun _ _ _ _ O O'), app_nil_r in Eu. exact Eu.
  - assert (G' : given (fun n => is_word n "depends") ((pairs (rid_segs p) ++ us) ++ dep_pairs o) ([] ++ of_option o)).
    { apply given_app.
      - apply (given_printed _ (fun x => str_eqb x (of_string "depends")) _ _ None); [apply word_test | reflexivity | apply NU; cbn; auto 10].
      - unfold dep_pairs. destruct o; [constructor; [reflexivity | constructor] | constructor]. }
    pose proof (given_fun _ _ _ _ G G') as Q3. subst vs. cbn [app] in Fd. destruct o as [t|].
    + cbn [of_option] in Fd. inversion Fd as [|? x ? ds' Fd1 Fd2]; subst. inversion Fd2; subst. cbn [List.concat]. rewrite app_nil_r. exact Fd1.
    + inversion Fd; subst. reflexivity.
Qed.

Definition dep_text (l : list str) : option str := match l with [] => None | _ => Some (depends_text l) end.
Lemma tokens_split : forall r us, rid_unknown (rid_params_of r) = map tok us ->
  rid_tokens r = pt_tokens (rid_formats r) ++ map tok (pairs (rid_segs (rid_params_of r)) ++ us ++ dep_pairs (dep_text (rid_depends r))).
Proof.
  intros r us Eu. unfold rid_tokens. rewrite Eu, !map_app. reflexivity.
Qed.
(** The tokens, with the last one trimmed. *)
Lemma tokens_trimmed : forall r us, rid_unknown (rid_params_of r) = map tok us ->
  Forall (fun nv => ~ In 61 (fst nv)) us -> us <> [] \/ rid_depends r <> [] ->
  exists init u us' o', rid_tokens r = init ++ [u] /\ trim_end u <> [] /\
    init ++ [trim_end u] = pt_tokens (rid_formats r) ++ map tok (pairs (rid_segs (rid_params_of r)) ++ us' ++ dep_pairs o') /\
    o' = option_map trim_end (dep_text (rid_depends r)) /\
    match o' with
    | Some _ => us' = us
    | None => exists ui n v, us = ui ++ [(n, v)] /\ us' = ui ++ [(n, trim_end v)]
    end.
Proof.
  intros r us Eu C N. pose proof (tokens_split r us Eu) as T. destruct (dep_text (rid_depends r)) as [t|] eqn:D.
  - exists (pt_tokens (rid_formats r) ++ map tok (pairs (rid_segs (rid_params_of r)) ++ us)), (tok (lit "depends", t)), us, (Some (trim_end t)).
    assert (Tt : trim_end (tok (lit "depends", t)) = tok (lit "depends", trim_end t)) by (apply trim_end_mid; reflexivity).
    split; [rewrite T, !map_app, <- !app_assoc; reflexivity|]. split; [rewrite Tt; discriminate|].
    split; [rewrite Tt, !map_app, <- !app_assoc; reflexivity|]. split; reflexivity.
  - assert (Nu : us <> []).
    { destruct N as [N|N]; [exact N|]. unfold dep_text in D. destruct (rid_depends r); [congruence | discriminate D]. }
    destruct (exists_last Nu) as (ui & [n v] & Q).
    exists (pt_tokens (rid_formats r) ++ map tok (pairs (rid_segs (rid_params_of r)) ++ ui)), (tok (n, v)), (ui ++ [(n, trim_end v)]), None.
    assert (Tt : trim_end (tok (n, v)) = tok (n, trim_end v)) by (apply trim_end_mid; reflexivity).
    split; [rewrite T, Q; cbn [dep_pairs pairs flat_map snd of_option map app]; rewrite !map_app, ?app_nil_r, <- !app_assoc; reflexivity|].
    split; [rewrite Tt; unfold tok; cbn [fst snd]; destruct n; discriminate|].
    split; [rewrite Tt; cbn [dep_pairs pairs flat_map snd of_option map app]; rewrite !map_app, ?app_nil_r, <- !app_assoc; reflexivity|].
    split; [reflexivity|]. exists ui, n, v. split; [exact Q | reflexivity].
Qed.
Lemma tok_pt : forall n v x, ~ In 61 n -> tok (n, v) = lit "pt=" ++ x -> n = lit "pt" /\ v = x.
Proof.
  intros n v x N Q. apply (cut_fun 61 (tok (n, v)) n v (lit "pt") x).
  - split; [reflexivity | exact N].
  - split; [exact Q | apply not_in_b; reflexivity].
Qed.
Lemma first_is_pt : forall p us o x rest, Forall (fun nv => ~ In 61 (fst nv)) us ->
  map tok (pairs (rid_segs p) ++ us ++ dep_pairs o) = (lit "pt=" ++ x) :: rest ->
  exists us1, us = (lit "pt", x) :: us1 /\ rest = map tok (pairs (rid_segs p) ++ us1 ++ dep_pairs o).
Proof.
  intros p us o x rest C Q.
  assert (S : pairs (rid_segs p) = []).
  { destruct (pairs (rid_segs p)) as [|[n v] l] eqn:K; [reflexivity|]. exfalso. cbn [app map] in Q. injection Q as Q _.
    assert (I : In (n, v) (pairs (rid_segs p))) by (rewrite K; left; reflexivity). unfold pairs, rid_segs in I. cbn [flat_map fst snd] in I.
    rewrite !in_app_iff in I.
    repeat (destruct I as [I|I]; [match type of I with In _ (match ?m with _ => _ end) => destruct m; [destruct I as [I|[]]; injection I as <- <-; discriminate Q | destruct I] end|]). destruct I. }
  rewrite S in *. cbn [app] in *. destruct us as [|[n v] us].
  - exfalso. destruct o; discriminate Q.
  - cbn [app map] in Q. injection Q as Q1 Q2. apply tok_pt in Q1; [|exact (Forall_inv C)]. destruct Q1 as [-> ->].
    exists us. split; [reflexivity | symmetry; exact Q2].
Qed.
Lemma formats_shrink : forall fs ns, Forall2 (fun f n => exists x, core f x /\ numeral u16_max x n) fs ns ->
  Forall2 shrinks fs (map show_N ns).
Proof.
  intros fs ns F. induction F as [|f n fs ns (x & C & K) F IH]; [constructor|]. cbn [map]. constructor; [|exact IH].
  exact (shr_trans _ _ _ (shr_core _ _ C) (shr_numeral _ _ _ K)).
Qed.
Lemma pt_shrinks : forall pts fs ns, fields 44 pts fs -> Forall2 (fun f n => exists x, core f x /\ numeral u16_max x n) fs ns ->
  exists t, pt_tokens ns = [t] /\ shrinks (lit "pt=" ++ pts) t.
Proof.
  intros pts fs ns F K. destruct (fields_join_inv _ _ _ F) as [-> N]. apply formats_shrink in K.
  destruct ns as [|n ns]; [inversion K; subst; congruence|]. cbn [pt_tokens]. eexists. split; [reflexivity|].
  apply shr_app; [apply shr_refl | apply shr_join, K].
Qed.
Lemma shr_same : forall l, Forall2 shrinks l l.
Proof. induction l; constructor; [apply shr_refl | assumption]. Qed.
(** What is read. *)
Lemma rid_tokens_read : forall r q us, attr_range (ARid r) -> attr_wf (ARid r) -> rid_unknown (rid_params_of r) = map tok us ->
  Forall (fun nv => ~ Exists (is_word (fst nv)) rid_names) us -> Forall (fun nv => ~ In 61 (fst nv)) us ->
  us <> [] \/ rid_depends r <> [] -> attr_value (trim_end (show_rid r)) (ARid q) ->
  let o' := option_map trim_end (dep_text (rid_depends r)) in
  rid_id q = rid_id r /\ rid_direction q = rid_direction r /\
  exists us1, rid_unknown (rid_params_of q) = map tok us1 /\
    match o' with None => rid_depends q = [] | Some t => fields 44 t (rid_depends q) end /\
    (o' = None -> us1 = [] \/ exists ui n v, us1 = ui ++ [(n, trim_end v)]) /\
    shrinks (join [59] (rid_tokens r)) (join [59] (rid_tokens q)) /\
    (rid_formats q = [] -> forall x rest, map tok (pairs (rid_segs (rid_params_of q)) ++ us1 ++ dep_pairs o') <> (lit "pt=" ++ x) :: rest).
Proof.
  intros r q us R W Eu U1 U2 N V o'. destruct (tokens_trimmed r us Eu U2 N) as (init & u & us' & o & T & Tu & Ti & Eo & Eus).
  fold o' in Eo. subst o. pose proof (rid_read_all r q init u W T Tu V) as (Qi & Qd & K). cbv zeta in K. rewrite Ti in K.
  split; [exact Qi|]. split; [exact Qd|].
  assert (Us' : Forall (fun nv => ~ Exists (is_word (fst nv)) rid_names) us' /\ Forall (fun nv => ~ In 61 (fst nv)) us').
  { destruct o'; [subst us'; split; assumption|]. destruct Eus as (ui & n & v & -> & ->).
    apply Forall_app in U1, U2. destruct U1 as [A1 A2], U2 as [B1 B2]. apply Forall_inv in A2, B2. cbn [fst] in *.
    split; apply Forall_app; (split; [assumption|]); constructor; try assumption; constructor. }
  destruct Us' as [U1' U2'].
  assert (S0 : shrinks (join [59] (rid_tokens r)) (join [59] (init ++ [trim_end u]))).
  { rewrite T. rewrite <- trim_end_join by exact Tu. apply shr_trim. }
  rewrite Ti in S0. destruct R as [_ R].
  assert (Main : forall us1 pre, us' = pre ++ us1 -> rid_params_value (map tok (pairs (rid_segs (rid_params_of r)) ++ us1 ++ dep_pairs o')) (rid_params_of q) (rid_depends q) ->
    rid_segs (rid_params_of q) = rid_segs (rid_params_of r) /\ rid_unknown (rid_params_of q) = map tok us1 /\
    match o' with None => rid_depends q = [] | Some t => fields 44 t (rid_depends q) end /\
    (o' = None -> us1 = [] \/ exists ui n v, us1 = ui ++ [(n, trim_end v)]) /\
    shrinks (join [59] (pt_tokens (rid_formats q) ++ map tok (pairs (rid_segs (rid_params_of r)) ++ us1 ++ dep_pairs o'))) (join [59] (rid_tokens q))).
  { intros us1 pre Ep P. rewrite Ep in U1', U2'. apply Forall_app in U1', U2'. destruct U1' as [_ U1'], U2' as [_ U2'].
    destruct (rid_params_read _ _ _ _ _ R U1' U2' P) as ((P1 & P2 & P3 & P4 & P5 & P6) & P7 & P8).
    assert (Sg : rid_segs (rid_params_of q) = rid_segs (rid_params_of r)) by (unfold rid_segs; congruence).
    split; [exact Sg|]. split; [exact P7|]. split; [exact P8|]. split.
    { intro K0. rewrite K0 in Eus. destruct Eus as (ui & n & v & _ & Q). destruct us1 as [|y us1]; [left; reflexivity|]. right.
      destruct (@exists_last _ (y :: us1)) as (z & w & Ez); [discriminate|]. rewrite Ez in *. rewrite Ep, app_assoc in Q.
      apply app_inj_tail in Q. destruct Q as [_ ->]. exists z, n, v. reflexivity. }
    rewrite (tokens_split q us1 P7), Sg. apply shr_join. apply Forall2_app; [apply shr_same|]. rewrite !map_app.
    apply Forall2_app; [apply shr_same|]. apply Forall2_app; [apply shr_same|].
    destruct o' as [t|]; [|rewrite P8; constructor].
    destruct (fields_join_inv _ _ _ P8) as [Et Nd]. unfold dep_text. destruct (rid_depends q) as [|d0 dl] eqn:Kd; [congruence|]. rewrite <- Kd in *.
    constructor; [|constructor]. unfold tok. cbn [fst snd]. apply shr_app; [apply shr_refl|]. apply shr_cons. rewrite Et. apply shr_filter. }
  destruct (rid_formats r) as [|f0 fl] eqn:Kf.
  - cbn [pt_tokens app] in K, S0. destruct K as [(pts & fs & rest & Q & F & F2 & P)|(Np & Fq & P)].
    + destruct (first_is_pt _ _ _ _ _ U2' Q) as (us1 & -> & ->).
      destruct (Main us1 [(lit "pt", pts)] eq_refl P) as (M1 & M2 & M3 & M4 & M5).
      destruct (pt_shrinks _ _ _ F F2) as (t & Pt & Sh).
      exists us1. split; [exact M2|]. split; [exact M3|]. split; [exact M4|]. split.
      * apply (shr_trans _ _ _ S0). refine (shr_trans _ _ _ _ M5). rewrite Pt, Q. apply shr_join. constructor; [exact Sh | apply shr_same].
      * intro Z. rewrite Z in Pt. discriminate Pt.
    + destruct (Main us' [] eq_refl P) as (M1 & M2 & M3 & M4 & M5). rewrite Fq in M5. cbn [pt_tokens app] in M5.
      exists us'. split; [exact M2|]. split; [exact M3|]. split; [exact M4|]. split; [exact (shr_trans _ _ _ S0 M5)|].
      intros _. rewrite M1. exact Np.
  - cbn [pt_tokens app] in K, S0. destruct K as [(pts & fs & rest & Q & F & F2 & P)|(Np & _)]; [|exfalso; exact (Np _ _ eq_refl)].
    assert (Q1 : join [44] (map show_N (f0 :: fl)) = pts).
    { apply (f_equal (hd [])) in Q. cbn [hd] in Q. exact (app_inv_head (lit "pt=") _ _ Q). }
    assert (Q2 : rest = map tok (pairs (rid_segs (rid_params_of r)) ++ us' ++ dep_pairs o')).
    { apply (f_equal (@tl _)) in Q. cbn [tl] in Q. congruence. }
    clear Q. rewrite Q2 in P. destruct (Main us' [] eq_refl P) as (M1 & M2 & M3 & M4 & M5).
    destruct (pt_shrinks _ _ _ F F2) as (t & Pt & Sh).
    exists us'. split; [exact M2|]. split; [exact M3|]. split; [exact M4|]. split.
    + apply (shr_trans _ _ _ S0). refine (shr_trans _ _ _ _ M5). rewrite Pt, Q1. apply shr_join. constructor; [exact Sh | apply shr_same].
    + intro Z. rewrite Z in Pt. discriminate Pt.
Qed.

Lemma not_blank_end : forall z, z <> [] -> ~ blank z -> trim_end z <> [].
Proof.
  intros z _ B K. apply B. destruct (trim_end_suffix z) as (w & Hz & Bw). rewrite K in Hz. cbn [app] in Hz. rewrite Hz. apply Forall_forall. rewrite forallb_forall in Bw. exact Bw.
Qed.
(** The dependencies that are read. *)
Lemma depends_settle : forall d dq, Forall (fun t => ~ In 44 t) d -> ~ Exists (fun t => t <> [] /\ blank t) d ->
  fields 44 (trim_end (depends_text d)) dq ->
  ~ (In [] dq /\ (2 <= List.length dq)%nat) /\ ~ (exists t, last_of dq = Some t /\ ends_blank t).
Proof.
  intros d dq C U F. unfold depends_text in F.
  assert (A : forall x, In x (filter non_empty d) -> x <> [] /\ ~ blank x /\ ~ In 44 x).
  { intros x Hx. apply filter_In in Hx. destruct Hx as [I Nx]. assert (x <> []) by (intros ->; discriminate Nx).
    split; [assumption|]. split; [|exact (proj1 (Forall_forall _ _) C x I)]. intro B. apply U. apply Exists_exists. exists x. tauto. }
  destruct (filter non_empty d) as [|x l] eqn:K.
  - apply fields_split in F. cbn in F. subst dq. split.
    + intros [_ Q]. cbn in Q. lia.
    + intros (t & Q & (c & y & -> & _)). injection Q as Q. destruct y; discriminate Q.
  - destruct (@exists_last _ (x :: l)) as (i & z & Ez); [discriminate|]. rewrite Ez in *. clear x l Ez.
    assert (Iz : In z (i ++ [z])) by (apply in_or_app; right; left; reflexivity).
    destruct (A z Iz) as (Z1 & Z2 & Z3). pose proof (not_blank_end z Z1 Z2) as Z4.
    rewrite trim_end_join in F by exact Z4.
    assert (Q : dq = i ++ [trim_end z]).
    { apply fields_split in F. rewrite <- F. apply fields_split. apply fields_join; [destruct i; discriminate|].
      apply Forall_app. split; [|constructor; [apply trim_end_no, Z3 | constructor]]. apply Forall_forall. intros y Hy.
      apply A, in_or_app. left. exact Hy. }
    subst dq. split.
    + intros [Q _]. apply in_app_or in Q. destruct Q as [Q|[Q|[]]]; [|congruence]. destruct (A []) as [Q' _]; [|congruence].
      apply in_or_app. left. exact Q.
    + intros (t & Q & B). rewrite last_of_app in Q. injection Q as <-. exact (trim_end_not_blank _ B).
Qed.
Lemma rid_settles : forall r q, attr_range (ARid r) -> attr_wf (ARid r) -> rid_lossy r ->
  attr_value (trim_end (show_rid r)) (ARid q) ->
  shrinks (show_rid r) (show_rid q) /\ (~ unsettled (ARid r) -> ~ rid_lossy q).
Proof.
  intros r q R W L V. pose proof W as (_ & _ & W3 & W4). destruct (unknown_pairs _ _ W3) as (us & Eu & U1 & U2 & U3).
  assert (N : us <> [] \/ rid_depends r <> []).
  { destruct us; [|left; discriminate]. destruct (rid_depends r) eqn:D; [|right; discriminate]. exfalso. unfold rid_lossy in L.
    rewrite Eu, D in L. cbn in L. destruct L as [[[] _]|[(z & Lz & _)|(_ & _ & _ & _ & _ & _ & _ & x & l & Q)]]; discriminate. }
  pose proof (rid_tokens_read r q us R W Eu U1 U2 N V) as K. cbv zeta in K.
  destruct K as (Qi & Qd & us1 & Eq & Dq & La & Sh & Np). split.
  - rewrite (rid_text r), (rid_text q), Qi, Qd by (rewrite ?Eu, ?Eq; apply tok_nonempty). apply shr_app; [apply shr_refl|].
    unfold leads. cbn [flat_map]. apply shr_cons, shr_app; [apply shr_refl|].
    assert (Nr : rid_tokens r <> []).
    { rewrite (tokens_split r us Eu), !map_app. unfold dep_text. destruct N as [N|N].
      - destruct us; [congruence|]. cbn [map app]. intro Z. apply app_eq_nil in Z. destruct Z as [_ Z]. apply app_eq_nil in Z. destruct Z as [_ Z]. discriminate Z.
      - destruct (rid_depends r); [congruence|]. intro Z. apply app_eq_nil in Z. destruct Z as [_ Z]. apply app_eq_nil in Z. destruct Z as [_ Z].
        apply app_eq_nil in Z. destruct Z as [_ Z]. discriminate Z. }
    destruct (rid_tokens r); [congruence|]. destruct (rid_tokens q).
    + right. cbn. lia.
    + cbn [flat_map]. rewrite !app_nil_r. apply shr_cons, Sh.
  - intros Un Lq. set (o' := option_map trim_end (dep_text (rid_depends r))) in *.
    assert (Cd : o' <> None -> ~ (In [] (rid_depends q) /\ (2 <= List.length (rid_depends q))%nat) /\
                 ~ (exists t, last_of (rid_depends q) = Some t /\ ends_blank t)).
    { intro K. subst o'. unfold dep_text in *. destruct (rid_depends r) as [|d0 dl] eqn:D; [contradiction|]. rewrite <- D in *.
      cbn [option_map] in Dq. apply (depends_settle (rid_depends r)); [|exact Un | exact Dq].
      eapply Forall_impl; [|exact W4]. intros d Hd. apply Hd. }
    destruct Lq as [Lq|[(t & Lq & B)|(Z0 & Z1 & Z2 & Z3 & Z4 & Z5 & Z6 & x & l & Z7)]].
    + destruct o' as [t|]; [|rewrite Dq in Lq; destruct Lq as [[] _]]. destruct Cd as [Cd _]; [discriminate|]. exact (Cd Lq).
    + destruct o' as [t'|] eqn:Ko.
      * destruct Cd as [_ Cd]; [discriminate|]. apply Cd. exists t. split; [|exact B]. destruct (fields_join_inv _ _ _ Dq) as [_ Nd].
        destruct (exists_last Nd) as (i & z & Q). rewrite Q, app_assoc, last_of_app in Lq. rewrite Q, last_of_app. exact Lq.
      * rewrite Dq, app_nil_r, Eq in Lq. destruct (La eq_refl) as [->|(ui & n & v & ->)]; [discriminate Lq|].
        rewrite map_app in Lq. cbn [map] in Lq. rewrite last_of_app in Lq. injection Lq as <-.
        assert (Tt : tok (n, trim_end v) = trim_end (tok (n, v))) by (symmetry; apply trim_end_mid; reflexivity).
        rewrite Tt in B. exact (trim_end_not_blank _ B).
    + rewrite Eq in Z7. apply (Np Z0 x (l ++ map tok (dep_pairs o'))). rewrite !map_app, Z7.
      unfold rid_segs. rewrite Z1, Z2, Z3, Z4, Z5, Z6. reflexivity.
Qed.
End WithExt.

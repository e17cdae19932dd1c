(** * Surplus words (C86) *)
From Coq Require Import List Arith NArith ZArith Lia Bool Ascii String.
From Coq Require Import ZifyBool ZifyNat ZifyN.
From Verif Require Import Str Num Net Types Ext Show Address AttrParse Media Session SpecApi SpecDoc SpecVal SpecBlank.
From Verif Require Import StrLemmas NumLemmas PApi PPanic PDoc PDoc2 PDoc3 PVal PVal9 PVal11 PCase PBlank.
Import ListNotations.
Open Scope N_scope.
Open Scope list_scope.

Section WithExt.
Context {E : Ext}.

Lemma start_words : forall c v v', same_start c v v' -> exists l r r', List.length l = c /\
  split_whitespace (trim v) = l ++ r /\ split_whitespace (trim v') = l ++ r'.
Proof. intros c v v' (l & r & r' & L & H & H'). apply words_sws in H, H'. exists l, r, r'. rewrite !sws_trim. auto. Qed.
Lemma words_not_empty : forall v x l, split_whitespace (trim v) = x :: l -> is_empty (trim v) = false.
Proof. intros v x l H. destruct (trim v); [discriminate H|reflexivity]. Qed.
Lemma start_origin : forall v v', same_start 6 v v' -> parse_origin (trim v) = parse_origin (trim v') /\ is_empty (trim v) = is_empty (trim v').
Proof.
  intros v v' S. destruct (start_words _ _ _ S) as (l & r & r' & L & H & H').
  do 6 (destruct l as [|? l]; [discriminate L|]). destruct l; [|discriminate L]. cbn [app] in H, H'.
  split; [unfold parse_origin; rewrite H, H'; reflexivity|]. rewrite (words_not_empty _ _ _ H), (words_not_empty _ _ _ H'). reflexivity.
Qed.
Lemma start_attribute : forall k c v v', In (k, c) first_words_attributes -> same_start c v v' ->
  mem_str k flag_names = false /\ exists p, assoc_str k attr_parsers = Some p /\ p (trim v) = p (trim v').
Proof.
  intros k c v v' I S. destruct (start_words _ _ _ S) as (l & r & r' & L & H & H'). clear S.
  repeat (destruct I as [I|I]; [injection I as <- <-; split; [vm_compute; reflexivity|]; eexists; split;
    [cbv - [parse_msid parse_remote_candidates parse_rtcp parse_rtpmap parse_simulcast]; reflexivity|];
    unfold parse_msid, parse_remote_candidates, parse_rtcp, parse_rtpmap, parse_simulcast; rewrite H, H';
    clear H H'|]); [| | | | |destruct I].
  - do 2 (destruct l as [|? l]; [discriminate L|]). reflexivity.
  - do 3 (destruct l as [|? l]; [discriminate L|]). reflexivity.
  - do 4 (destruct l as [|? l]; [discriminate L|]). reflexivity.
  - do 2 (destruct l as [|? l]; [discriminate L|]). reflexivity.
  - do 4 (destruct l as [|? l]; [discriminate L|]). reflexivity.
Qed.
Lemma surplus_result : forall x y n, surplus x y -> same_result x y n.
Proof.
  intros x y n R. destruct R as [k c t v v' I R S|k c t name v v' I R RN S].
  - destruct I as [I|[]]. injection I as <- <-. destruct (start_origin _ _ S) as (Q & Em).
    apply (type_result 111); [lia|vm_compute; reflexivity|exact R|exact Em|exact Q].
  - destruct (start_attribute _ _ _ _ I S) as (F & p & P1 & P2). refine (attribute_result k t name v v' n p _ R RN F P1 P2).
    apply name_ok_b. repeat (destruct I as [I|I]; [injection I as <- <-; vm_compute; reflexivity|]). destruct I.
Qed.
Lemma surplus_not_blank : forall x y, surplus x y -> ~ SpecDoc.blank x /\ ~ SpecDoc.blank y.
Proof.
  assert (K : forall a b, ~ SpecDoc.blank (a ++ [61] ++ b)).
  { intros a b H. unfold SpecDoc.blank in H. rewrite Forall_forall in H. assert (C : is_ws 61 = true); [apply H|discriminate].
    apply in_app_iff. right. left. reflexivity. }
  intros x y [k c t v v' I R B|k c t name v v' I R RN B]; split; apply K.
Qed.
Lemma surplus_document : forall sdp1 sdp2 b, 51 <= byte_len sdp1 -> 51 <= byte_len sdp2 ->
  Forall2 (fun x y => reworded x y \/ surplus x y) (lines sdp1) (lines sdp2) ->
  erase_text_result (parse_sdp sdp1 b) = erase_text_result (parse_sdp sdp2 b).
Proof.
  apply like_document.
  - intros x y [P|P]; [exact (reworded_blank _ _ P)|]. apply surplus_not_blank in P. tauto.
  - intros x y n [P|P]; [exact (reworded_result _ _ n P)|]. pose proof (surplus_result _ _ n P) as K. unfold same_result in K.
    destruct (parse_sdp_line x n), (parse_sdp_line y n); try contradiction; auto; [|tauto].
    destruct K as (K1 & K2). split; [exact K1|left; exact K2].
Qed.

(** ** Types and attributes with a fixed number of words *)
Lemma line_value : forall t v n l, ~ In 61 t -> parse_sdp_line (t ++ [61] ++ v) n = Ok l ->
  exists ty, parse_value (to_lower (trim t)) (trim v) v = Ok ty.
Proof.
  intros t v n l T P. unfold parse_sdp_line in P. change (t ++ [61] ++ v) with (t ++ c_eq :: v) in P.
  assert (C : contains c_eq (t ++ c_eq :: v) = true) by (apply contains_In, in_app_iff; right; left; reflexivity).
  rewrite C, splitn2_app in P by (apply contains_not_In; exact T). cbn [negb] in P. cbv zeta in P.
  destruct (1 <? byte_len (trim t)); [discriminate|]. destruct (is_empty (trim t)); [discriminate|].
  destruct (_ && _); [discriminate|]. destruct (parse_value _ _ _) as [ty|e|]; [eauto|discriminate|discriminate].
Qed.
Lemma exact_type : forall k c t v n l, In (k, c) all_words_types -> recased t k -> parse_sdp_line (t ++ [61] ++ v) n = Ok l ->
  exists ws, words v ws /\ List.length ws = c.
Proof.
  intros k c t v n l I R P. exists (split_whitespace v). split; [apply words_sws; reflexivity|].
  repeat (destruct I as [I|I]; [injection I as <- <-|]); [| |destruct I].
  - destruct (letter_type t 99 R ltac:(lia)) as (T1 & T2). destruct (line_value _ _ _ _ T1 P) as (ty & V). rewrite T2 in V.
    change (parse_connection (trim v) = Ok ty) in V. unfold parse_connection in V. cbv zeta in V. rewrite sws_trim in V.
    destruct (Nat.eqb_spec (List.length (split_whitespace v)) 3); [assumption|discriminate].
  - destruct (letter_type t 116 R ltac:(lia)) as (T1 & T2). destruct (line_value _ _ _ _ T1 P) as (ty & V). rewrite T2 in V.
    change (parse_timing (trim v) = Ok ty) in V. unfold parse_timing in V. cbv zeta in V. rewrite sws_trim in V.
    destruct (Nat.eqb_spec (List.length (split_whitespace v)) 2); [assumption|discriminate].
Qed.
Lemma exact_attribute : forall k c t name v n l, In (k, c) all_words_attributes -> recased t (lit "a") -> recased name k ->
  parse_sdp_line (t ++ [61] ++ name ++ [58] ++ v) n = Ok l -> exists ws, words v ws /\ List.length ws = c.
Proof.
  intros k c t name v n l I R RN P. exists (split_whitespace v). split; [apply words_sws; reflexivity|].
  destruct (letter_type t 97 R ltac:(lia)) as (T1 & T2). destruct (line_value _ _ _ _ T1 P) as (ty & V). rewrite T2 in V.
  change (parse_attribute (trim (name ++ 58 :: v)) = Ok ty) in V.
  assert (NK : name_ok k) by (apply name_ok_b; repeat (destruct I as [I|I]; [injection I as <- <-; vm_compute; reflexivity|]); destruct I).
  pose proof (name_starts _ _ NK RN) as (NN & SN). destruct NK as (? & ? & _ & _ & _ & Lk).
  unfold parse_attribute in V. rewrite trim_idem, trim_name in V by assumption.
  unfold attr_from_str in V. change c_colon with 58 in V. rewrite splitn2_app in V by (apply contains_not_In; exact NN).
  cbn [idx nth_error bind List.length Nat.ltb Nat.leb andb] in V. rewrite (lower_recased _ _ RN), Lk, trim_of_end in V.
  repeat (destruct I as [I|I]; [injection I as <- <-|]); [| |destruct I].
  - change ((a <- parse_fingerprint (trim v) ;; Ok (TyAttribute a)) = Ok ty) in V. unfold parse_fingerprint in V. cbv zeta in V. rewrite sws_trim in V.
    destruct (Nat.eqb_spec (List.length (split_whitespace v)) 2); [assumption|discriminate].
  - change ((a <- parse_sctpmap (trim v) ;; Ok (TyAttribute a)) = Ok ty) in V. unfold parse_sctpmap in V. cbv zeta in V. rewrite sws_trim in V.
    destruct (Nat.eqb_spec (List.length (split_whitespace v)) 3); [assumption|discriminate].
Qed.
End WithExt.

(** * The lines of the RFCs are accepted (C62): fingerprint, rtcp-fb, candidate *)
From Coq Require Import List Arith NArith ZArith Lia Bool Ascii String.
From Coq Require Import ZifyBool ZifyNat ZifyN.
From Verif Require Import Str Num Net Types Ext Show Address AttrParse Media Session SpecApi SpecDoc SpecVal SpecItems
  SpecPrint SpecIp SpecGrammar.
From Verif Require Import StrLemmas NumLemmas NetLemmas PVal PVal2 PVal8 PVal9 PVal10 PVal11 PPrint PPrint2 PPrint3 PPrint4
  PPrint9 PPrint11 PIp PIp2.
From Verif Require Import SpecRfc PRfc PRfc2.
Import ListNotations.
Open Scope N_scope.
Open Scope list_scope.

(** ** Fields by name *)
Lemma field_exists : forall {A} (is : str -> Prop) f (reads : str -> A -> Prop) none ps, (forall n, is n <-> f n = true) ->
  Forall (fun nv => is (fst nv) -> exists y, reads (snd nv) y) ps -> exists x, field_of is ps reads none x.
Proof.
  intros A is f reads none ps D F.
  assert (K : exists vs, given is ps vs /\ Forall (fun v => exists y, reads v y) vs).
  { induction F as [|[n v] ps H F [vs [G R]]]; [exists []; split; constructor|]. cbn [fst snd] in H.
    destruct (f n) eqn:C.
    - apply D in C. exists (v :: vs). split; [apply given_here; assumption|constructor; auto].
    - exists vs. split; [|exact R]. apply given_other; [|exact G]. rewrite D, C. discriminate. }
  destruct K as [vs [G R]]. unfold field_of. destruct (last_of vs) as [v|] eqn:L.
  - assert (J : In v vs). { unfold last_of in L. apply in_rev. destruct (rev vs); [discriminate L|]. injection L as <-. left. reflexivity. }
    rewrite Forall_forall in R. destruct (R v J) as [x X]. exists x, vs. split; [exact G|]. split; [apply Forall_forall, R|].
    rewrite L. exact X.
  - exists none, vs. split; [exact G|]. split; [exact R|]. rewrite L. reflexivity.
Qed.
Lemma option_exists : forall {A} (is : str -> Prop) f (reads : str -> A -> Prop) ps, (forall n, is n <-> f n = true) ->
  Forall (fun nv => is (fst nv) -> exists y, reads (snd nv) y) ps -> exists x, option_field is ps reads x.
Proof.
  intros A is f reads ps D F. apply (field_exists is f); [exact D|]. eapply Forall_impl; [|exact F].
  intros [n v] H K. destruct (H K) as [y Y]. exists (Some y), y. auto.
Qed.
Lemma others_exists : forall (known : str -> Prop) f ps, (forall n, known n <-> f n = true) -> exists us, others known ps us.
Proof.
  intros known f ps D. induction ps as [|[n v] ps [us IH]]; [exists []; constructor|]. destruct (f n) eqn:C.
  - exists us. apply others_drop; [apply D, C|exact IH].
  - exists ((n, v) :: us). apply others_keep; [rewrite D, C; discriminate|exact IH].
Qed.
Lemma exists_means : forall names n, forallb (fun x => lower_word (of_string x)) names = true ->
  (Exists (means n) names <-> existsb (fun x => str_eqb (to_lower n) (of_string x)) names = true).
Proof.
  intros names n L. rewrite Exists_exists, existsb_exists. rewrite forallb_forall in L.
  split; intros [x [I H]]; exists x; (split; [exact I|]).
  - apply str_eqb_eq, means_iff; auto.
  - apply means_iff; [auto|]. apply str_eqb_eq, H.
Qed.
Lemma exists_means_upper : forall names n, forallb (fun x => upper_word (of_string x)) names = true ->
  (Exists (means_upper n) names <-> existsb (fun x => str_eqb (to_upper n) (of_string x)) names = true).
Proof.
  intros names n L. rewrite Exists_exists, existsb_exists. rewrite forallb_forall in L.
  split; intros [x [I H]]; exists x; (split; [exact I|]).
  - apply str_eqb_eq, means_upper_iff; auto.
  - apply means_upper_iff; [auto|]. apply str_eqb_eq, H.
Qed.
Lemma exists_is : forall names n,
  (Exists (is_word n) names <-> existsb (fun x => str_eqb n (of_string x)) names = true).
Proof.
  intros names n. rewrite Exists_exists, existsb_exists.
  split; intros [x [I H]]; exists x; (split; [exact I|]); [apply str_eqb_eq, H|apply str_eqb_eq in H; exact H].
Qed.

Section WithExt.
Context {E : Ext}.

(** ** fingerprint *)
Lemma g_octet : forall t, gen (Cat uhex uhex) t -> word t /\ ~ In 58 t /\ byte_len t = 2 /\ exists n, hex_numeral 255 t n.
Proof.
  intros t H. apply g_inv_cat in H. destruct H as [x [y [-> [H K]]]]. apply g_inv_chr in H, K.
  destruct H as [c [-> C]], K as [d [-> D]]. cbn [app].
  assert (HC : forall c, (48 <= c <= 57 \/ 65 <= c <= 70) -> exists n, hex_digit c n /\ n <= 15).
  { clear. intros c [C|C]; [exists (c - 48)|exists (c - 55)]; unfold hex_digit; lia. }
  destruct (HC c C) as [m [Hm Bm]], (HC d D) as [n [Hn Bn]].
  split. { split; [discriminate|]. repeat constructor; apply vchar_solid; unfold vchar; lia. }
  split. { cbn [In]. lia. }
  split. { unfold byte_len. cbn. unfold utf8_len. destruct (c <? 128) eqn:C1; [|lia]. destruct (d <? 128) eqn:D1; [|lia]. reflexivity. }
  exists (16 * m + n). exists [c; d], [m; n]. split; [left; reflexivity|]. split; [discriminate|].
  split; [constructor; [exact Hm|constructor; [exact Hn|constructor]]|]. cbn [fold_left]. lia.
Qed.
Lemma g_octets : forall n t, gen (octets (S n)) t -> exists x l, t = x ++ leads 58 l /\ Forall (gen (Cat uhex uhex)) (x :: l) /\
  List.length (x :: l) = S n.
Proof.
  intros n t H. cbn [octets] in H. apply g_inv_cat in H. destruct H as [x [y [-> [H K]]]]. exists x.
  assert (J : exists l, y = leads 58 l /\ Forall (gen (Cat uhex uhex)) l /\ List.length l = n).
  { clear H x. revert y K. induction n as [|n IH]; intros y K; cbn [times] in K.
    - apply g_inv_lit in K. exists []. split; [exact K|]. split; [constructor|reflexivity].
    - apply g_inv_cat in K. destruct K as [u [v [-> [U V]]]]. apply IH in V. destruct V as [l [-> [F L]]].
      apply g_inv_cat in U. destruct U as [a [b [-> [A B]]]]. apply g_inv_lit in A. subst a. exists (b :: l).
      split; [reflexivity|]. split; [constructor; assumption|]. cbn. lia. }
  destruct J as [l [-> [F L]]]. exists l. split; [reflexivity|]. split; [constructor; assumption|]. cbn. lia.
Qed.
Lemma fingerprint_read : forall h w k t, of_string w = of_string (hash_name h) ++ [32] -> S k = hash_octets h ->
  gen (Cat (Lit w) (octets (S k))) t -> read_as "fingerprint" t.
Proof.
  intros h w k t Hw L H. apply g_inv_cat in H. destruct H as [x [y [-> [H K]]]]. apply g_inv_lit in H. subst x.
  apply g_octets in K. destruct K as [x [l [-> [F N]]]].
  assert (V : exists bs, Forall2 (fun t n => byte_len t = 2 /\ hex_numeral 255 t n) (x :: l) bs).
  { clear -F. generalize dependent (x :: l). intros ts F. induction F as [|t ts H F [bs IH]]; [exists []; constructor|]. apply g_octet in H.
    destruct H as (_ & _ & B & n & U). exists (n :: bs). constructor; auto. }
  destruct V as [bs V].
  assert (W : word (x ++ leads 58 l)).
  { split; [|].
    - inversion F as [|? ? H F']; subst. apply g_octet in H. destruct H as ([Z _] & _). destruct x; [congruence|discriminate].
    - inversion F as [|? ? H F']; subst. apply g_octet in H. destruct H as ([_ Z] & _). apply Forall_app. split; [exact Z|].
      clear -F'. induction F' as [|t l H F IH]; [constructor|]. apply g_octet in H. cbn [leads flat_map].
      apply Forall_app. split; [constructor; [reflexivity|apply H]|exact IH]. }
  assert (Wh : word (of_string (hash_name h))) by (destruct h; apply word_b; reflexivity).
  replace (of_string w ++ x ++ leads 58 l) with (of_string (hash_name h) ++ leads 32 [x ++ leads 58 l])
    by (rewrite Hw; unfold leads; cbn [flat_map app]; repeat (rewrite <- app_assoc; cbn [app]); rewrite ?app_nil_r; reflexivity).
  apply (read_solid _ (AFingerprint {| fp_hash := h; fp_bytes := bs |})); [apply ends_leads; fa; assumption|exact I|].
  exists (of_string (hash_name h)), (x ++ leads 58 l), (x :: l). cbn [fp_hash fp_bytes].
  split; [apply words_leads; fa; assumption|]. split; [reflexivity|]. split; [|split; [exact V|congruence]].
  inversion F as [|? ? H F']; subst. apply fields_leads; [apply g_octet, H|].
  eapply Forall_impl; [|exact F']. intros t T. apply g_octet, T.
Qed.
Lemma r_fingerprint : names_of ("fingerprint"%string, rfc_fingerprint).
Proof.
  start. apply g_inv_alt in H. destruct H as [r [M H]].
  destruct M as [<-|[<-|[<-|[<-|[<-|[]]]]]].
  - exact (fingerprint_read Sha1 "sha-1 " 19 v eq_refl eq_refl H).
  - exact (fingerprint_read Sha224 "sha-224 " 27 v eq_refl eq_refl H).
  - exact (fingerprint_read Sha256 "sha-256 " 31 v eq_refl eq_refl H).
  - exact (fingerprint_read Sha384 "sha-384 " 47 v eq_refl eq_refl H).
  - exact (fingerprint_read Sha512 "sha-512 " 63 v eq_refl eq_refl H).
Qed.

(** ** rtcp-fb *)
Lemma g_rest : forall t, gen rest t -> t = [] \/ exists u, t = 32 :: u /\ ends_solid u.
Proof.
  intros t H. apply g_inv_opt in H. destruct H as [->|H]; [left; reflexivity|right].
  apply g_inv_cat in H. destruct H as [u [w [-> [H V]]]]. apply g_inv_lit in H. subst u. exists w. split; [reflexivity|].
  apply (g_inv_list 32) in V; [|reflexivity]. destruct V as [a [l [F ->]]]. apply (forall_word _ _ non_ws_word) in F.
  inversion F; subst. apply ends_leads; assumption.
Qed.
(** payload, type, parameter, and what follows *)
Lemma fb_read : forall pt p ty par more, payload_value pt p -> word pt -> ~ In 32 pt ->
  fb_parameter_ok ty (Some par) -> word par -> ~ In 32 par -> more = [] \/ (exists u, more = 32 :: u /\ ends_solid u) ->
  read_as "rtcp-fb" (pt ++ 32 :: of_string (fb_name ty) ++ 32 :: par ++ more).
Proof.
  intros pt p ty par more P W S O Wp Sp M.
  assert (SN : ~ In 32 (of_string (fb_name ty))) by (destruct ty; apply not_in_b; reflexivity).
  assert (En : ends_solid (pt ++ 32 :: of_string (fb_name ty) ++ 32 :: par ++ more)).
  { apply ends_app, ends_cons, ends_app, ends_cons. destruct M as [->|[u [-> U]]].
    - rewrite app_nil_r. apply word_ends, Wp.
    - apply ends_app, ends_cons, U. }
  apply (read_solid _ (ARtcpfb {| fb_payload_type := p; fb_feedback_type := ty; fb_parameter := par; fb_extra := tl more |}));
    [exact En|exact I|].
  eexists. exists pt, (of_string (fb_name ty)), (par :: match more with [] => [] | _ :: u => [u] end).
  split; [apply core_self; [apply starts_app, word_starts, W|exact En]|]. split.
  - cbn [space_parts]. right. exists pt. eexists. eexists. split; [split; [reflexivity|exact S]|]. split; [reflexivity|].
    right. exists (of_string (fb_name ty)). eexists. eexists. split; [split; [reflexivity|exact SN]|]. split; [reflexivity|].
    destruct M as [->|[u [-> U]]].
    + left. rewrite app_nil_r. auto.
    + right. exists par, u, [u]. split; [split; [reflexivity|exact Sp]|]. auto.
  - cbn [fb_payload_type fb_feedback_type fb_parameter fb_extra hd_error hd tl]. split; [exact P|]. split; [reflexivity|].
    split; [exact O|]. split; [reflexivity|]. destruct M as [->|[u [-> U]]]; reflexivity.
Qed.
Lemma fb_alone : forall pt p ty, payload_value pt p -> word pt -> ~ In 32 pt -> fb_parameter_ok ty None ->
  read_as "rtcp-fb" (pt ++ 32 :: of_string (fb_name ty)).
Proof.
  intros pt p ty P W S O.
  assert (SN : ~ In 32 (of_string (fb_name ty))) by (destruct ty; apply not_in_b; reflexivity).
  assert (WN : word (of_string (fb_name ty))) by (destruct ty; apply word_b; reflexivity).
  apply (read_solid _ (ARtcpfb {| fb_payload_type := p; fb_feedback_type := ty; fb_parameter := []; fb_extra := [] |}));
    [apply ends_app, ends_cons, word_ends, WN|exact I|].
  eexists. exists pt, (of_string (fb_name ty)), [].
  split; [apply core_self; [apply starts_app, word_starts, W|apply ends_app, ends_cons, word_ends, WN]|]. split.
  - cbn [space_parts]. right. exists pt. eexists. eexists. split; [split; [reflexivity|exact S]|]. split; [reflexivity|].
    left. auto.
  - cbn [fb_payload_type fb_feedback_type fb_parameter fb_extra hd_error hd tl]. split; [exact P|]. split; [reflexivity|].
    split; [exact O|]. split; reflexivity.
Qed.
Lemma r_rtcp_fb : names_of ("rtcp-fb"%string, rfc_rtcp_fb).
Proof.
  start. pieces H.
  assert (K : word x /\ ~ In 32 x /\ exists p, payload_value x p).
  { apply g_inv_or in G. destruct G as [G|G].
    - apply g_inv_lit in G. subst x. split; [apply word_b; reflexivity|]. split; [apply not_in_b; reflexivity|].
      exists Wildcard. reflexivity.
    - apply g_at_most in G. destruct G as (W & D & U). split; [exact W|]. split; [apply (class_no _ _ _ D); unfold is_digit; lia|].
      exists (PayloadType (dec_value x)). exact U. }
  destruct K as (W & S & p & P). clear G.
  assert (J : forall ty par more, x1 = of_string (fb_name ty) ++ 32 :: par ++ more -> fb_parameter_ok ty (Some par) -> word par ->
    ~ In 32 par -> gen rest more -> read_as "rtcp-fb" (List.concat [x; of_string " "; x1])).
  { intros ty par more -> O Wp Sp M. text (x ++ 32 :: of_string (fb_name ty) ++ 32 :: par ++ more).
    apply (fb_read x p); auto. apply g_rest, M. }
  assert (L : forall ty w l, gen (cats [Lit w; lits l; rest]) x1 -> of_string w = of_string (fb_name ty) ++ [32] ->
    (forall y, In y l -> fb_parameter_ok ty (Some (of_string y)) /\ non_empty (of_string y) && no_ws (of_string y) = true) ->
    read_as "rtcp-fb" (List.concat [x; of_string " "; x1])).
  { intros ty w l H Hw Hl. pieces H. apply g_inv_lits in G0. destruct G0 as [y [Y ->]]. apply Hl in Y.
    assert (Wy : word (of_string y)) by (apply word_b, Y).
    apply (J ty (of_string y) x2); try apply Y.
    - cbn [List.concat]. rewrite Hw, app_nil_r, <- app_assoc. reflexivity.
    - exact Wy.
    - destruct Wy as [_ Z]. apply (class_no _ _ _ Z). discriminate.
    - exact G2. }
  assert (Al : forall ty, x1 = of_string (fb_name ty) -> fb_parameter_ok ty None ->
    read_as "rtcp-fb" (List.concat [x; of_string " "; x1])).
  { intros ty -> O. text (x ++ 32 :: of_string (fb_name ty)). apply (fb_alone x p); assumption. }
  apply g_inv_alt in G1. destruct G1 as [r [M H]]. cbn [In] in M.
  destruct M as [<-|[<-|[<-|[<-|[<-|[<-|[<-|[]]]]]]]].
  - apply (L FbAck "ack "%string _ H eq_refl). intros y [<-|[<-|[]]]; (split; [cbn; tauto|reflexivity]).
  - apply (Al FbNack); [exact (g_inv_lit _ _ H)|exact I].
  - apply (L FbNack "nack "%string _ H eq_refl). intros y [<-|[<-|[<-|[<-|[]]]]]; (split; [cbn; tauto|reflexivity]).
  - apply (L FbCcm "ccm "%string _ H eq_refl). intros y [<-|[<-|[<-|[<-|[]]]]]; (split; [cbn; tauto|reflexivity]).
  - apply g_inv_cat in H. destruct H as [u [w [-> [H V]]]]. apply g_inv_lit in H. subst u.
    apply g_at_most in V. destruct V as (Wp & D & U).
    apply (J FbTrrInt w []).
    + rewrite app_nil_r. reflexivity.
    + exists (dec_value w). exact U.
    + exact Wp.
    + apply (class_no _ _ _ D). unfold is_digit. lia.
    + apply gen_or_left, gen_lit.
  - apply (Al FbRemb); [exact (g_inv_lit _ _ H)|exact I].
  - apply (Al FbTransCc); [exact (g_inv_lit _ _ H)|exact I].
Qed.
End WithExt.

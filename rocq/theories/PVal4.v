(** * Name/value lists: candidate extensions, fmtp and rid parameters against the
    grammars of SpecVal.v (proofs only) *)
From Coq Require Import List NArith ZArith Bool Ascii String Lia.
From Coq Require Import ZifyBool ZifyNat ZifyN.
From Verif Require Import Str Num Net Types Ext Show Address AttrParse Media Session.
From Verif Require Import StrLemmas NumLemmas NetLemmas.
From Verif Require Import SpecApi SpecDoc SpecVal PVal PVal2 PVal3.
Import ListNotations.
Open Scope N_scope.
Open Scope list_scope.

(** ** Appending one pair *)
Lemma last_of_snoc : forall {A} (l : list A) x, last_of (l ++ [x]) = Some x.
Proof. intros. unfold last_of. rewrite rev_app_distr. reflexivity. Qed.
Lemma last_of_In : forall {A} (l : list A) x, last_of l = Some x -> In x l.
Proof.
  intros A l x H. unfold last_of in H. apply in_rev. destruct (rev l); inv H. now left.
Qed.
Lemma last_of_none : forall {A} (l : list A), last_of l = None -> l = [].
Proof.
  intros A l H. unfold last_of in H. destruct (rev l) eqn:R; inv H.
  apply (f_equal (@rev A)) in R. rewrite rev_involutive in R. exact R.
Qed.

Lemma given_snoc_is : forall (is : str -> Prop) ps n v vs, is n ->
  (given is (ps ++ [(n, v)]) vs <-> exists vs', given is ps vs' /\ vs = vs' ++ [v]).
Proof.
  intros is ps n v vs Hn; split.
  - revert vs. induction ps as [|[m w] ps IH]; intros vs H; cbn [app] in H.
    + inv H; [|contradiction]. match goal with X : given _ [] _ |- _ => inv X end.
      exists []. split; [constructor | reflexivity].
    + inv H; match goal with X : given _ (_ ++ _) _ |- _ => apply IH in X; destruct X as (vs' & G & ->) end.
      * exists (w :: vs'). split; [apply given_here; assumption | reflexivity].
      * exists vs'. split; [apply given_other; assumption | reflexivity].
  - intros (vs' & G & ->). induction G; cbn [app].
    + apply given_here; [assumption | constructor].
    + apply given_here; assumption.
    + apply given_other; assumption.
Qed.
Lemma given_snoc_not : forall (is : str -> Prop) ps n v vs, ~ is n ->
  (given is (ps ++ [(n, v)]) vs <-> given is ps vs).
Proof.
  intros is ps n v vs Hn; split.
  - revert vs. induction ps as [|[m w] ps IH]; intros vs H; cbn [app] in H.
    + inv H; [contradiction|]. assumption.
    + inv H; [apply given_here | apply given_other]; auto.
  - intro G. induction G; cbn [app].
    + apply given_other; [assumption | constructor].
    + apply given_here; assumption.
    + apply given_other; assumption.
Qed.

Lemma field_snoc_is : forall {A} (is : str -> Prop) ps n v (reads : str -> A -> Prop) (none x : A), is n ->
  (field_of is (ps ++ [(n, v)]) reads none x <->
   (exists y, field_of is ps reads none y) /\ reads v x).
Proof.
  intros A is ps n v reads none x Hn. unfold field_of. split.
  - intros (vs & G & F & L). apply given_snoc_is in G; [|assumption].
    destruct G as (vs' & G & ->). rewrite last_of_snoc in L. split; [|exact L].
    apply Forall_app in F. destruct F as [F _].
    destruct (last_of vs') as [w|] eqn:Lw.
    + pose proof (last_of_In _ _ Lw) as Iw. rewrite Forall_forall in F.
      destruct (F _ Iw) as (y & Hy). exists y, vs'. rewrite Lw.
      split; [exact G|]. split; [apply Forall_forall; exact F | exact Hy].
    + exists none, vs'. rewrite Lw. auto.
  - intros [(y & vs & G & F & L) R]. exists (vs ++ [v]). rewrite last_of_snoc.
    split; [apply given_snoc_is; [assumption | eauto]|]. split; [|exact R].
    apply Forall_app. split; [exact F | repeat constructor; eauto].
Qed.
Lemma field_snoc_not : forall {A} (is : str -> Prop) ps n v (reads : str -> A -> Prop) (none x : A), ~ is n ->
  (field_of is (ps ++ [(n, v)]) reads none x <-> field_of is ps reads none x).
Proof.
  intros A is ps n v reads none x Hn. unfold field_of.
  split; intros (vs & G & F); exists vs; (split; [|exact F]); apply (given_snoc_not is ps n v vs Hn);
    assumption.
Qed.
Lemma field_nil : forall {A} (is : str -> Prop) (reads : str -> A -> Prop) (none x : A), field_of is [] reads none x <-> x = none.
Proof.
  intros A is reads none x. unfold field_of. split.
  - intros (vs & G & F & L). inv G. exact L.
  - intros ->. exists []. repeat split; constructor.
Qed.

Lemma others_snoc_known : forall (known : str -> Prop) ps n v us, known n ->
  (others known (ps ++ [(n, v)]) us <-> others known ps us).
Proof.
  intros known ps n v us Hn; split.
  - revert us. induction ps as [|[m w] ps IH]; intros us H; cbn [app] in H.
    + inv H; [contradiction|]. assumption.
    + inv H; [apply others_keep | apply others_drop]; auto.
  - intro G. induction G; cbn [app].
    + apply others_drop; [assumption | constructor].
    + apply others_keep; assumption.
    + apply others_drop; assumption.
Qed.
Lemma others_snoc_unknown : forall (known : str -> Prop) ps n v us, ~ known n ->
  (others known (ps ++ [(n, v)]) us <-> exists us', others known ps us' /\ us = us' ++ [(n, v)]).
Proof.
  intros known ps n v us Hn; split.
  - revert us. induction ps as [|[m w] ps IH]; intros us H; cbn [app] in H.
    + inv H; [|contradiction]. match goal with X : others _ [] _ |- _ => inv X end.
      exists []. split; [constructor | reflexivity].
    + inv H; match goal with X : others _ (_ ++ _) _ |- _ => apply IH in X; destruct X as (us' & G & ->) end.
      * exists ((m, w) :: us'). split; [apply others_keep; assumption | reflexivity].
      * exists us'. split; [apply others_drop; assumption | reflexivity].
  - intros (us' & G & ->). induction G; cbn [app].
    + apply others_keep; [assumption | constructor].
    + apply others_keep; assumption.
    + apply others_drop; assumption.
Qed.
Lemma others_nil_iff : forall known us, others known [] us <-> us = [].
Proof. intros known us; split; [intro H; inv H; reflexivity | intros ->; constructor]. Qed.

(** Names compared by their upper- or lower-case form. *)
Lemma lower_is : forall n name, to_lower n = of_string name -> lower_word (of_string name) = true ->
  means n name.
Proof. intros n name H W. apply means_iff; assumption. Qed.
Lemma upper_is : forall n name, to_upper n = of_string name -> upper_word (of_string name) = true ->
  means_upper n name.
Proof. intros n name H W. apply means_upper_iff; assumption. Qed.

Section WithExt.
Context {E : Ext}.

(** ** candidate *)
Definition cand_ext (ps : list (str * str)) (c : candidate) : Prop :=
  option_field (fun n => means n "generation") ps (numeral u32_max) (generation c) /\
  option_field (fun n => means n "network-cost") ps (numeral u32_max) (networkcost c) /\
  option_field (fun n => means n "raddr") ps reads_address (raddr c) /\
  option_field (fun n => means n "rport") ps (numeral 65535) (rport c) /\
  option_field (fun n => means n "tcptype") ps (fun s t => means s (tcp_type_name t)) (tcp_type c) /\
  option_field (fun n => means n "ufrag") ps (fun s x => x = s) (ufrag c) /\
  others (fun n => Exists (means n) extension_names) ps (unknown_extensions c).
Definition same_base (c d : candidate) : Prop :=
  foundation c = foundation d /\ component c = component d /\ transport c = transport d /\
  priority c = priority d /\ cand_address c = cand_address d /\ cand_port c = cand_port d /\
  c_type c = c_type d.

Definition cand_step (c : candidate) (nv : str * str) : res ierr candidate :=
  candidate_extension c (fst nv) (snd nv).

Lemma extensions_fold : forall toks c c', candidate_extensions c toks = Ok c' <->
  exists ps, in_pairs toks = Some ps /\ foldM cand_step ps c = Ok c'.
Proof.
  assert (G : forall k toks c c', (List.length toks <= k)%nat ->
    (candidate_extensions c toks = Ok c' <->
     exists ps, in_pairs toks = Some ps /\ foldM cand_step ps c = Ok c')).
  { induction k as [|k IH]; intros toks c c' L.
    - destruct toks; [|cbn in L; lia]. cbn. split.
      + intro H. exists []. auto.
      + intros (ps & H & F). inv H. exact F.
    - destruct toks as [|a [|b rest]].
      + cbn. split; [intro H; exists []; auto | intros (ps & H & F); inv H; exact F].
      + cbn. split; [discriminate | intros (ps & H & F); discriminate].
      + cbn [candidate_extensions in_pairs]. cbn in L. split.
        * intro H. okb H d Hd. apply IH in H; [|lia]. destruct H as (ps & H1 & H2).
          exists ((a, b) :: ps). rewrite H1. split; [reflexivity|]. cbn [foldM].
          change (cand_step c (a, b)) with (candidate_extension c a b). rewrite Hd. exact H2.
        * intros (ps & H & F). destruct (in_pairs rest) as [ps'|] eqn:P; inv H.
          cbn [foldM] in F. change (cand_step c (a, b)) with (candidate_extension c a b) in F.
          okb F d Hd. rewrite Hd. cbn [bind]. apply IH; [lia|]. eauto. }
  intros toks c c'. apply (G (List.length toks)). lia.
Qed.

Lemma tcp_type_iff : forall s t,
  assoc_str (to_lower s) [ (lit "active", TcpActive); (lit "passive", TcpPassive);
                           (lit "so", TcpSimultaneous) ] = Some t <-> means s (tcp_type_name t).
Proof.
  intros s t. rewrite means_iff by (destruct t; reflexivity). apply table_iff.
  - repeat constructor.
  - intros []; reflexivity.
Qed.

Ltac not_means Hn := rewrite means_iff by reflexivity; rewrite Hn; discriminate.
Ltac ext_known Hn :=
  unfold extension_names;
  repeat first [ apply Exists_cons_hd; apply lower_is; [exact Hn | reflexivity]
               | apply Exists_cons_tl ].

Definition cand_base_set (b : candidate) (c : candidate) : Prop := same_base b c.

Lemma cand_ext_iff : forall c0 ps c,
  generation c0 = None -> networkcost c0 = None -> raddr c0 = None -> rport c0 = None ->
  tcp_type c0 = None -> ufrag c0 = None -> unknown_extensions c0 = [] ->
  (foldM cand_step ps c0 = Ok c <-> same_base c c0 /\ cand_ext ps c).
Proof.
  intros c0 ps c G1 G2 G3 G4 G5 G6 G7. revert c. induction ps as [|[n v] ps IH] using rev_ind; intro c.
  - cbn [foldM]. unfold cand_ext, option_field. rewrite !field_nil, others_nil_iff. split.
    + intro H. inv H. repeat split; assumption.
    + intros (S & B). destruct c, c0; unfold same_base in S; cbn in *.
      destruct S as (? & ? & ? & ? & ? & ? & ?), B as (? & ? & ? & ? & ? & ? & ?). subst. reflexivity.
  - rewrite foldM_app. cbn [foldM].
    transitivity (exists c', (same_base c' c0 /\ cand_ext ps c') /\ candidate_extension c' n v = Ok c).
    { split.
      - intro H. okb H c' Hc'. apply IH in Hc'. exists c'. split; [exact Hc'|].
        cbn [foldM] in H. okb H c'' Hc''. inv H. exact Hc''.
      - intros (c' & Hc' & H). apply IH in Hc'. rewrite Hc'. cbn [bind].
        change (cand_step c' (n, v)) with (candidate_extension c' n v). rewrite H. reflexivity. }
    unfold candidate_extension.
    destruct (str_eqb_spec (to_lower n) (lit "generation")) as [Hn|N1];
      [|destruct (str_eqb_spec (to_lower n) (lit "network-cost")) as [Hn|N2];
      [|destruct (str_eqb_spec (to_lower n) (lit "raddr")) as [Hn|N3];
      [|destruct (str_eqb_spec (to_lower n) (lit "rport")) as [Hn|N4];
      [|destruct (str_eqb_spec (to_lower n) (lit "tcptype")) as [Hn|N5];
      [|destruct (str_eqb_spec (to_lower n) (lit "ufrag")) as [Hn|N6]]]]]].
    + unfold cand_ext at 2, option_field.
      rewrite field_snoc_is by (apply lower_is; [exact Hn | reflexivity]).
      rewrite 5 field_snoc_not by not_means Hn.
      rewrite others_snoc_known by ext_known Hn.
      split.
      * intros (c' & [S (F1 & F)] & H). okb H x Hx. apply p_u32_iff in Hx. inv H.
        split; [exact S|]. split; [split; [exists (generation c'); exact F1 | exists x; auto]|].
        exact F.
      * intros (S & [(y & F1) (x & E1 & R)] & F). exists (set_generation y c).
        split; [split; [exact S | split; [exact F1 | exact F]]|].
        apply p_u32_iff in R. rewrite R. cbn [bind]. destruct c; cbn in *; subst; reflexivity.
    + unfold cand_ext at 2, option_field.
      rewrite (field_snoc_not (fun n => means n "generation")) by not_means Hn.
      rewrite (field_snoc_is (fun n => means n "network-cost")) by (apply lower_is; [exact Hn | reflexivity]).
      rewrite 4 field_snoc_not by not_means Hn.
      rewrite others_snoc_known by ext_known Hn.
      split.
      * intros (c' & [S (F0 & F1 & F)] & H). okb H x Hx. apply p_u32_iff in Hx. inv H.
        split; [exact S|]. split; [exact F0|].
        split; [split; [exists (networkcost c'); exact F1 | exists x; auto]|]. exact F.
      * intros (S & F0 & [(y & F1) (x & E1 & R)] & F). exists (set_networkcost y c).
        split; [split; [exact S | split; [exact F0 | split; [exact F1 | exact F]]]|].
        apply p_u32_iff in R. rewrite R. cbn [bind]. destruct c; cbn in *; subst; reflexivity.
    + unfold cand_ext at 2, option_field.
      rewrite 2 field_snoc_not by not_means Hn.
      rewrite (field_snoc_is (fun n => means n "raddr")) by (apply lower_is; [exact Hn | reflexivity]).
      rewrite 3 field_snoc_not by not_means Hn.
      rewrite others_snoc_known by ext_known Hn.
      split.
      * intros (c' & [S (F0 & F0' & F1 & F)] & H). okb H x Hx. apply address_iff in Hx. inv H.
        split; [exact S|]. split; [exact F0|]. split; [exact F0'|].
        split; [split; [exists (raddr c'); exact F1 | exists x; auto]|]. exact F.
      * intros (S & F0 & F0' & [(y & F1) (x & E1 & R)] & F). exists (set_raddr y c).
        split; [split; [exact S | split; [exact F0 | split; [exact F0' | split; [exact F1 | exact F]]]]|].
        unfold parse_unicast_address. apply address_iff in R. rewrite R. cbn [bind].
        destruct c; cbn in *; subst; reflexivity.
    + unfold cand_ext at 2, option_field.
      rewrite 3 field_snoc_not by not_means Hn.
      rewrite (field_snoc_is (fun n => means n "rport")) by (apply lower_is; [exact Hn | reflexivity]).
      rewrite 2 field_snoc_not by not_means Hn.
      rewrite others_snoc_known by ext_known Hn.
      split.
      * intros (c' & [S (F0 & F0' & F0'' & F1 & F)] & H). okb H x Hx.
        destruct (65535 <? x) eqn:L; [discriminate|]. inv H.
        split; [exact S|]. split; [exact F0|]. split; [exact F0'|]. split; [exact F0''|].
        split; [split; [exists (rport c'); exact F1 | exists x; split; [reflexivity | apply port_iff; auto]]|].
        exact F.
      * intros (S & F0 & F0' & F0'' & [(y & F1) (x & E1 & R)] & F). exists (set_rport y c).
        split; [split; [exact S | split; [exact F0 | split; [exact F0' | split; [exact F0'' | split; [exact F1 | exact F]]]]]|].
        apply port_iff in R. destruct R as [R L]. rewrite R. cbn [bind]. rewrite L.
        destruct c; cbn in *; subst; reflexivity.
    + unfold cand_ext at 2, option_field.
      rewrite 4 field_snoc_not by not_means Hn.
      rewrite (field_snoc_is (fun n => means n "tcptype")) by (apply lower_is; [exact Hn | reflexivity]).
      rewrite (field_snoc_not (fun n => means n "ufrag")) by not_means Hn.
      rewrite others_snoc_known by ext_known Hn.
      split.
      * intros (c' & [S (F0 & F0' & F0'' & F0''' & F1 & F)] & H).
        destruct (assoc_str _ _) as [x|] eqn:A; [|discriminate]. apply tcp_type_iff in A. inv H.
        split; [exact S|]. split; [exact F0|]. split; [exact F0'|]. split; [exact F0''|].
        split; [exact F0'''|]. split; [split; [exists (tcp_type c'); exact F1 | exists x; auto]|]. exact F.
      * intros (S & F0 & F0' & F0'' & F0''' & [(y & F1) (x & E1 & R)] & F). exists (set_tcp_type y c).
        split; [split; [exact S | repeat (split; [assumption|]); exact F]|].
        apply tcp_type_iff in R. rewrite R. destruct c; cbn in *; subst; reflexivity.
    + unfold cand_ext at 2, option_field.
      rewrite 5 field_snoc_not by not_means Hn.
      rewrite (field_snoc_is (fun n => means n "ufrag")) by (apply lower_is; [exact Hn | reflexivity]).
      rewrite others_snoc_known by ext_known Hn.
      split.
      * intros (c' & [S (F0 & F0' & F0'' & F0''' & F0'''' & F1 & F)] & H). inv H.
        split; [exact S|]. repeat (split; [assumption|]).
        split; [split; [exists (ufrag c'); exact F1 | exists v; auto]|]. exact F.
      * intros (S & F0 & F0' & F0'' & F0''' & F0'''' & [(y & F1) (x & E1 & R)] & F).
        exists (set_ufrag y c).
        split; [split; [exact S | repeat (split; [assumption|]); exact F]|].
        subst x. destruct c; cbn in *; subst; reflexivity.
    + unfold cand_ext at 2, option_field.
      rewrite 6 field_snoc_not by (rewrite means_iff by reflexivity; assumption).
      rewrite others_snoc_unknown.
      2:{ unfold extension_names. intro X.
          repeat (apply Exists_cons in X; destruct X as [X|X];
                  [apply means_iff in X; [contradiction | reflexivity]|]).
          inversion X. }
      split.
      * intros (c' & [S (F0 & F1 & F2 & F3 & F4 & F5 & F)] & H). inv H.
        split; [exact S|]. repeat (split; [assumption|]).
        exists (unknown_extensions c'). auto.
      * intros (S & F0 & F1 & F2 & F3 & F4 & F5 & us & F & Eu).
        exists (set_unknown_extensions us c).
        split; [split; [exact S | repeat (split; [assumption|]); exact F]|].
        destruct c; cbn in *; subst; reflexivity.
Qed.

Lemma candidate_iff : forall v a, parse_candidate (trim v) = Ok a <->
  exists c, a = ACandidate c /\ candidate_value v c.
Proof.
  intros v a. unfold parse_candidate, candidate_value. rewrite sws_trim.
  assert (TT : forall x t, ok_or (assoc_str (to_lower x) [ (lit "udp", Udp); (lit "tcp", Tcp) ])
                       (gen "Unknonw candidate transport value") = Ok t <-> means x (transport_name t)).
  { intros x t. rewrite means_iff by (destruct t; reflexivity).
    rewrite <- (table_iff [ (lit "udp", Udp); (lit "tcp", Tcp) ] transport_name).
    - destruct (assoc_str _ _); cbn; split; intro H; inv H; reflexivity.
    - repeat constructor.
    - intros []; reflexivity. }
  assert (CT : forall x t, ok_or (assoc_str (to_lower x)
                      [ (lit "host", Host); (lit "srflx", Srflx); (lit "prflx", Prflx);
                        (lit "relay", Relay) ])
                   (gen "Unknow candidate type value") = Ok t <-> means x (cand_type_name t)).
  { intros x t. rewrite means_iff by (destruct t; reflexivity).
    rewrite <- (table_iff [ (lit "host", Host); (lit "srflx", Srflx); (lit "prflx", Prflx);
                        (lit "relay", Relay) ] cand_type_name).
    - destruct (assoc_str _ _); cbn; split; intro H; inv H; reflexivity.
    - repeat constructor.
    - intros []; reflexivity. }
  split.
  - destruct (split_whitespace v) as [|t0 [|t1 [|t2 [|t3 [|t4 [|t5 [|t6 [|t7 more]]]]]]]] eqn:W;
      intro H; try discriminate H.
    cbn [List.length Nat.ltb Nat.leb idx nth_error bind skipn] in H.
    okb H comp H1. apply p_u32_iff in H1. okb H trans H2. apply TT in H2.
    okb H prio H3. apply p_u64_iff in H3. okb H addr H4. apply address_iff in H4.
    okb H port H5. destruct (65535 <? port) eqn:L; [discriminate|].
    destruct (str_eqb_spec (to_lower t6) (lit "typ")) as [H6|]; [|discriminate]. cbn [negb] in H.
    okb H ct H7. apply CT in H7. okb H c' Hc. inv H.
    apply extensions_fold in Hc. destruct Hc as (ps & Hps & F).
    apply cand_ext_iff in F; try reflexivity. destruct F as [S X].
    exists c'. split; [reflexivity|]. unfold same_base in S. cbn in S.
    destruct S as (S0 & S1 & S2 & S3 & S4 & S5 & S6).
    exists t0, t1, t2, t3, t4, t5, t6, t7, more, ps. rewrite words_sws.
    rewrite S1, S2, S3, S4, S5, S6.
    split; [exact W|]. split; [exact S0|]. split; [exact H1|]. split; [exact H2|].
    split; [exact H3|]. split; [exact H4|]. split; [apply port_iff; auto|].
    split; [apply means_iff; [reflexivity | exact H6]|]. split; [exact H7|].
    split; [exact Hps|]. exact X.
  - intros (c & -> & t0 & t1 & t2 & t3 & t4 & t5 & t6 & t7 & more & ps & W & H0 & H1 & H2 & H3 & H4 & H5 & H6 & H7 & Hps & X).
    apply words_sws in W. rewrite W.
    cbn [List.length Nat.ltb Nat.leb idx nth_error bind skipn].
    apply p_u32_iff in H1. rewrite H1. cbn [bind]. apply TT in H2. rewrite H2. cbn [bind].
    apply p_u64_iff in H3. rewrite H3. cbn [bind]. apply address_iff in H4. rewrite H4. cbn [bind].
    apply port_iff in H5. destruct H5 as [H5 L]. rewrite H5. cbn [bind]. rewrite L.
    apply means_iff in H6; [|reflexivity]. rewrite H6. cbn [str_eqb].
    apply CT in H7. change (of_string "typ") with (lit "typ"). rewrite str_eqb_refl. cbn [negb].
    rewrite H7. cbn [bind].
    rewrite (proj2 (extensions_fold more _ c)); [reflexivity|].
    exists ps. split; [exact Hps|]. apply cand_ext_iff; try reflexivity.
    split; [|exact X]. unfold same_base. cbn. repeat split; auto.
Qed.

End WithExt.

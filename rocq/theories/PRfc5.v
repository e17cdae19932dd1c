(** * The lines of the RFCs are accepted (C62): rid, fmtp *)
From Coq Require Import List Arith NArith ZArith Lia Bool Ascii String.
From Coq Require Import ZifyBool ZifyNat ZifyN.
From Verif Require Import Str Num Net Types Ext Show Address AttrParse Media Session SpecApi SpecDoc SpecVal SpecItems
  SpecPrint SpecIp SpecGrammar.
From Verif Require Import StrLemmas NumLemmas NetLemmas PVal PVal2 PVal6 PVal8 PVal9 PVal10 PVal11 PPrint PPrint2 PPrint3 PPrint4
  PPrint9 PPrint11 PIp PIp2.
From Verif Require Import SpecRfc PRfc PRfc2 PRfc3 PRfc4.
Import ListNotations.
Open Scope N_scope.
Open Scope list_scope.

Section WithExt.
Context {E : Ext}.
(** ** rid *)
(** What is needed of one restriction. *)
Definition good_rid (nv : str * str) : Prop :=
  ~ In 61 (fst nv) /\ fst nv <> lit "pt" /\
  forall name, In name ["max-width"; "max-height"; "max-fps"; "max-fs"; "max-br"; "max-pps"]%string ->
    is_word (fst nv) name -> exists y, numeral u32_max (snd nv) y.
Definition eq_text (nv : str * str) : str := fst nv ++ 61 :: snd nv.
Lemma eq_cut : forall (P : str * str -> Prop) ps, (forall nv, P nv -> ~ In 61 (fst nv)) -> Forall P ps ->
  Forall2 (fun t nv => cut 61 t (fst nv) (snd nv)) (map eq_text ps) ps.
Proof.
  intros P ps H F. induction F as [|nv ps K F IH]; [constructor|]. cbn [map]. constructor; [|exact IH].
  split; [reflexivity|apply H, K].
Qed.
Lemma fields_exists : forall c t, exists l, fields c t l.
Proof. intros c t. exists (split c t). apply fields_split. reflexivity. Qed.
Lemma rid_params_exist : forall ps, Forall good_rid ps -> exists p depends, rid_params_value (map eq_text ps) p depends.
Proof.
  intros ps F.
  assert (K : forall name, In name ["max-width"; "max-height"; "max-fps"; "max-fs"; "max-br"; "max-pps"]%string ->
    exists x, field_of (fun n => is_word n name) ps (numeral u32_max) 0 x).
  { intros name M. apply (field_exists _ (fun n => str_eqb n (of_string name))).
    - intro n. rewrite str_eqb_eq. reflexivity.
    - eapply Forall_impl; [|exact F]. intros nv (_ & _ & H) I. exact (H name M I). }
  destruct (K "max-width"%string) as [x1 X1]; [cbn; tauto|]. destruct (K "max-height"%string) as [x2 X2]; [cbn; tauto|].
  destruct (K "max-fps"%string) as [x3 X3]; [cbn; tauto|]. destruct (K "max-fs"%string) as [x4 X4]; [cbn; tauto|].
  destruct (K "max-br"%string) as [x5 X5]; [cbn; tauto|]. destruct (K "max-pps"%string) as [x6 X6]; [cbn; tauto|].
  destruct (others_exists (fun n => Exists (is_word n) rid_names) _ ps (fun n => exists_is rid_names n)) as [us U].
  assert (D : exists vs ds, given (fun n => is_word n "depends") ps vs /\ Forall2 (fields 44) vs ds).
  { destruct (field_exists (fun n => is_word n "depends") (fun n => str_eqb n (of_string "depends")) (fields 44) [] ps) as [x [vs [G [R _]]]].
    - intro n. rewrite str_eqb_eq. reflexivity.
    - apply Forall_forall. intros nv _ _. apply fields_exists.
    - apply forall2_exists in R. destruct R as [ds R]. exists vs, ds. auto. }
  destruct D as (vs & ds & D1 & D2).
  exists {| max_width := x1; max_height := x2; max_fps := x3; rid_max_fs := x4; rid_max_br := x5; max_pps := x6;
            rid_unknown := map (fun nv => fst nv ++ 61 :: snd nv) us |}, (List.concat ds).
  exists ps. split; [apply (eq_cut good_rid); [intros nv H; apply H|exact F]|].
  cbv zeta. cbn [max_width max_height max_fps rid_max_fs rid_max_br max_pps rid_unknown].
  split; [exact X1|]. split; [exact X2|]. split; [exact X3|]. split; [exact X4|]. split; [exact X5|]. split; [exact X6|].
  split; [exists vs, ds; auto|]. exists us. auto.
Qed.
Definition restriction_char (c : N) : Prop := vchar c /\ c <> 59.
Lemma rid_restriction_char : forall c, rid_char c -> restriction_char c.
Proof. intros c H. unfold rid_char, alpha_num in H. unfold restriction_char, vchar. lia. Qed.
Lemma digit_restriction_char : forall c, is_digit c -> restriction_char c.
Proof. intros c H. unfold is_digit in H. unfold restriction_char, vchar. lia. Qed.
Definition restriction_chars (t : str) : bool := forallb (fun c => (33 <=? c) && (c <=? 126) && negb (c =? 59)) t.
Lemma restriction_b : forall t, restriction_chars t = true -> Forall restriction_char t.
Proof.
  intros t H. apply Forall_forall. unfold restriction_chars in H. rewrite forallb_forall in H. intros c C. apply H in C.
  unfold restriction_char, vchar. lia.
Qed.
Lemma g_restriction : forall t, gen rid_restriction t -> exists nv, t = eq_text nv /\ good_rid nv /\ Forall restriction_char t.
Proof.
  intros t H. apply g_inv_alt in H. destruct H as [r [M H]]. destruct M as [<-|M].
  - pieces H. apply (g_inv_list 44) in G0; [|reflexivity]. destruct G0 as [y [l [F ->]]].
    exists (lit "depends", y ++ leads 44 l). split; [|split].
    + cbn [List.concat]. rewrite app_nil_r. reflexivity.
    + split; [apply not_in_b; reflexivity|]. split; [discriminate|]. intros name M K. exfalso. unfold is_word in K. cbn [fst] in K.
      cbn [In] in M. destruct M as [<-|[<-|[<-|[<-|[<-|[<-|[]]]]]]]; discriminate K.
    + cbn [List.concat]. rewrite app_nil_r. apply Forall_app. split; [apply restriction_b; reflexivity|].
      assert (FC : Forall (Forall restriction_char) (y :: l)).
      { eapply Forall_impl; [|exact F]. intros t T. apply g_rid in T. eapply Forall_impl; [|apply T]. exact rid_restriction_char. }
      inversion FC; subst. apply Forall_app. split; [assumption|]. apply leads_class; [unfold restriction_char, vchar; lia|assumption].
  - apply in_app_iff in M. destruct M as [M|[<-|[]]].
    + apply in_map_iff in M. destruct M as [n [<- M]]. pieces H. apply g_at_most in G1. destruct G1 as (W & D & U).
      assert (B : contains 61 (of_string n) = false /\ restriction_chars (of_string n) = true /\ of_string n <> lit "pt").
      { cbn [In] in M. destruct M as [<-|[<-|[<-|[<-|[<-|[<-|[]]]]]]]; (split; [reflexivity|]; split; [reflexivity|discriminate]). }
      destruct B as (B1 & B2 & B3). exists (of_string n, x1). split; [|split].
      * cbn [List.concat]. rewrite app_nil_r. reflexivity.
      * split; [apply not_in_b, B1|]. split; [exact B3|]. intros name _ _. exists (dec_value x1). exact U.
      * cbn [List.concat]. rewrite app_nil_r. apply Forall_app. split; [apply restriction_b, B2|].
        change (of_string "=" ++ x1) with (61 :: x1). constructor; [unfold restriction_char, vchar; lia|]. eapply Forall_impl; [|exact D]. exact digit_restriction_char.
    + pieces H. apply g_inv_such in G. destruct G as [G [K P]]. apply g_rid in G. destruct G as [W F].
      apply g_inv_many_chr in G1. exists (x, x1). split; [|split].
      * cbn [List.concat]. rewrite app_nil_r. reflexivity.
      * split; [apply (class_no _ _ _ F); unfold rid_char, alpha_num; lia|]. split; [exact P|].
        intros name M J. exfalso. apply K, Exists_exists. exists name. split; [|exact J]. unfold rid_names. cbn [In] in M |- *. tauto.
      * cbn [List.concat]. rewrite app_nil_r. apply Forall_app. split; [eapply Forall_impl; [|exact F]; exact rid_restriction_char|].
        change (of_string "=" ++ x1) with (61 :: x1). constructor; [unfold restriction_char, vchar; lia|]. exact G1.
Qed.
Lemma g_restrictions : forall l, Forall (gen rid_restriction) l -> exists ps, l = map eq_text ps /\ Forall good_rid ps /\
  Forall (Forall restriction_char) l.
Proof.
  intros l F. induction F as [|t l H F (ps & -> & IH1 & IH2)]; [exists []; repeat split; constructor|].
  apply g_restriction in H. destruct H as (nv & -> & G & C). exists (nv :: ps). repeat split; constructor; assumption.
Qed.
Lemma restriction_word : forall t, t <> [] -> Forall restriction_char t -> word t.
Proof. intros t N F. apply (class_word restriction_char); [|exact N|exact F]. intros c [C _]. apply vchar_solid, C. Qed.
Lemma restriction_59 : forall t, Forall restriction_char t -> ~ In 59 t.
Proof. intros t F. apply (class_no _ _ _ F). unfold restriction_char. lia. Qed.
Lemma rid_read : forall id d more r, word id -> ~ In 32 id -> rid_id r = id -> rid_direction r = d ->
  match more with
  | None => rid_formats r = [] /\ rid_params_value [] (rid_params_of r) (rid_depends r)
  | Some params => ends_solid params /\ exists ps, fields 59 params ps /\
      ((exists pts fs rest, ps = (lit "pt=" ++ pts) :: rest /\ fields 44 pts fs /\
          Forall2 (fun f n => exists x, core f x /\ numeral u16_max x n) fs (rid_formats r) /\
          rid_params_value rest (rid_params_of r) (rid_depends r)) \/
       ((forall x rest, ps <> (lit "pt=" ++ x) :: rest) /\ rid_formats r = [] /\
          rid_params_value ps (rid_params_of r) (rid_depends r)))
  end ->
  read_as "rid" (id ++ 32 :: of_string (single_direction_name d) ++ match more with None => [] | Some p => 32 :: p end).
Proof.
  intros id d more r W N <- <- M.
  assert (SD : ~ In 32 (of_string (single_direction_name (rid_direction r)))) by (destruct (rid_direction r); apply not_in_b; reflexivity).
  assert (WD : word (of_string (single_direction_name (rid_direction r)))) by (destruct (rid_direction r); apply word_b; reflexivity).
  destruct more as [p|].
  - destruct M as [Ep M].
    assert (En : ends_solid (rid_id r ++ 32 :: of_string (single_direction_name (rid_direction r)) ++ 32 :: p))
      by (apply ends_app, ends_cons, ends_app, ends_cons, Ep).
    apply (read_solid _ (ARid r)); [exact En|exact I|]. eexists. exists (of_string (single_direction_name (rid_direction r))), [p].
    split; [apply core_self; [apply starts_app, word_starts, W|exact En]|]. split; [|split; [reflexivity|exact M]].
    cbn [space_parts]. right. eexists. eexists. eexists. split; [split; [reflexivity|exact N]|]. split; [reflexivity|].
    right. eexists. eexists. eexists. split; [split; [reflexivity|exact SD]|]. split; [reflexivity|]. reflexivity.
  - rewrite app_nil_r. assert (En : ends_solid (rid_id r ++ 32 :: of_string (single_direction_name (rid_direction r))))
      by (apply ends_app, ends_cons, word_ends, WD).
    apply (read_solid _ (ARid r)); [exact En|exact I|]. eexists. exists (of_string (single_direction_name (rid_direction r))), [].
    split; [apply core_self; [apply starts_app, word_starts, W|exact En]|]. split; [|split; [reflexivity|exact M]].
    cbn [space_parts]. right. eexists. eexists. eexists. split; [split; [reflexivity|exact N]|]. split; [reflexivity|].
    left. split; [exact SD|reflexivity].
Qed.
Lemma eq_text_nonempty : forall nv, eq_text nv <> [].
Proof. intros [n v]. unfold eq_text. cbn [fst snd]. destruct n; discriminate. Qed.
Lemma ends_leads_any : forall c t l, word t -> Forall word l -> ends_solid (t ++ leads c l).
Proof.
  intros c t l W F. revert t W. induction F as [|u l H F IH]; intros t W.
  - cbn. rewrite app_nil_r. apply word_ends, W.
  - cbn [leads flat_map]. apply ends_app, ends_cons. apply (IH u H).
Qed.
Lemma r_rid : names_of ("rid"%string, rfc_rid).
Proof.
  start. pieces H. apply g_rid in G. destruct G as [W F].
  assert (N : ~ In 32 x) by (apply (class_no _ _ _ F); unfold rid_char, alpha_num; lia).
  apply g_inv_lits in G1. destruct G1 as [w [M ->]].
  assert (K : exists d, single_direction_name d = w).
  { cbn in M. destruct M as [<-|[<-|[]]]; [exists Send|exists Recv]; reflexivity. }
  destruct K as [d <-]. clear M.
  apply g_inv_opt in G2. destruct G2 as [->|G2].
  - text (x ++ 32 :: of_string (single_direction_name d) ++ []).
    destruct (rid_params_exist []) as (p & dep & P); [constructor|].
    apply (rid_read x d None {| rid_id := x; rid_direction := d; rid_formats := []; rid_params_of := p; rid_depends := dep |});
      try reflexivity; auto.
  - apply g_inv_cat in G2. destruct G2 as [u [v [-> [G2 V]]]]. apply g_inv_lit in G2. subst u.
    apply g_inv_cat in V. destruct V as [a [b [-> [A B]]]]. apply (g_inv_leads 59) in B; [|reflexivity]. destruct B as [l [B ->]].
    apply g_restrictions in B. destruct B as (ps & -> & GB & CB).
    text (x ++ 32 :: of_string (single_direction_name d) ++ 32 :: a ++ leads 59 (map eq_text ps)).
    assert (WB : Forall word (map eq_text ps)).
    { clear -CB. induction ps as [|nv ps IH]; [constructor|]. cbn [map] in *. inversion CB; subst. constructor; [|auto].
      apply restriction_word; [apply eq_text_nonempty|assumption]. }
    assert (SB : Forall (fun t => ~ In 59 t) (map eq_text ps)) by (eapply Forall_impl; [|exact CB]; exact restriction_59).
    apply g_inv_or in A. destruct A as [A|A].
    + apply g_inv_cat in A. destruct A as [u [pts [-> [A B]]]]. apply g_inv_lit in A. subst u.
      apply (g_inv_list 44) in B; [|reflexivity]. destruct B as [f [fs [B ->]]].
      assert (FC : Forall (fun t => word t /\ Forall is_digit t /\ numeral 65535 t (dec_value t)) (f :: fs)).
      { eapply Forall_impl; [|exact B]. intros t T. apply g_at_most, T. }
      assert (FD : Forall restriction_char (f ++ leads 44 fs)).
      { assert (J : Forall (Forall restriction_char) (f :: fs)).
        { eapply Forall_impl; [|exact FC]. intros t (_ & D & _). eapply Forall_impl; [|exact D]. exact digit_restriction_char. }
        inversion J; subst. apply Forall_app. split; [assumption|]. apply leads_class; [unfold restriction_char, vchar; lia|assumption]. }
      assert (FP : Forall restriction_char (lit "pt=" ++ f ++ leads 44 fs)).
      { apply Forall_app. split; [apply restriction_b; reflexivity|exact FD]. }
      destruct (rid_params_exist ps GB) as (p & dep & P).
      apply (rid_read x d (Some ((lit "pt=" ++ f ++ leads 44 fs) ++ leads 59 (map eq_text ps)))
        {| rid_id := x; rid_direction := d; rid_formats := map dec_value (f :: fs); rid_params_of := p; rid_depends := dep |});
        try reflexivity; auto.
      split; [apply ends_leads_any; [apply restriction_word; [discriminate|exact FP]|exact WB]|].
      exists ((lit "pt=" ++ f ++ leads 44 fs) :: map eq_text ps). split; [apply fields_leads; [apply restriction_59, FP|exact SB]|].
      left. exists (f ++ leads 44 fs), (f :: fs), (map eq_text ps). split; [reflexivity|]. split.
      * assert (J : Forall (fun t => ~ In 44 t) (f :: fs)).
        { eapply Forall_impl; [|exact FC]. intros t (_ & D & _). apply (class_no _ _ _ D). unfold is_digit. lia. }
        inversion J; subst. apply fields_leads; assumption.
      * split; [|exact P]. cbn [rid_formats]. clear -FC. generalize dependent (f :: fs). intros l FC.
        induction FC as [|t l (W & D & U) F IH]; [constructor|]. cbn [map]. constructor; [|exact IH].
        exists t. split; [apply word_core, W|exact U].
    + apply g_restriction in A. destruct A as (nv & -> & GA & CA).
      destruct (rid_params_exist (nv :: ps)) as (p & dep & P); [constructor; assumption|].
      apply (rid_read x d (Some (eq_text nv ++ leads 59 (map eq_text ps)))
        {| rid_id := x; rid_direction := d; rid_formats := []; rid_params_of := p; rid_depends := dep |});
        try reflexivity; auto.
      split; [apply ends_leads_any; [apply restriction_word; [apply eq_text_nonempty|exact CA]|exact WB]|].
      exists (eq_text nv :: map eq_text ps). split; [apply fields_leads; [apply restriction_59, CA|exact SB]|].
      right. split; [|split; [reflexivity|exact P]].
      intros y rest J. assert (Q : eq_text nv = lit "pt=" ++ y) by congruence. destruct nv as [n v]. destruct GA as (G1 & G3 & _).
      cbn [fst snd] in *. apply G3. apply (cut_fun 61 (eq_text (n, v)) n v (lit "pt") y).
      * split; [reflexivity|exact G1].
      * split; [exact Q|apply not_in_b; reflexivity].
Qed.
End WithExt.

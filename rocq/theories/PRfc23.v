(** * Lines of the RFCs are printed as lines of the RFCs (C80): media formats *)
From Coq Require Import List Arith NArith ZArith Lia Bool Ascii String.
From Coq Require Import ZifyBool ZifyNat ZifyN.
From Verif Require Import Str Num Net Types Ext Show Address AttrParse Media Session SpecApi SpecDoc SpecVal SpecItems
  SpecPrint SpecIp SpecGrammar.
From Verif Require Import StrLemmas NumLemmas NetLemmas PVal PVal2 PVal6 PVal8 PVal9 PVal10 PVal11 PPrint PPrint2 PPrint3 PPrint4
  PPrint9 PPrint11 PIp PIp2 PDoc3 PExt0 PSettle PGrow PGram.
From Verif Require Import SpecRfc PRfc PRfc2 PRfc3 PRfc4 PRfc5 PRfc6 PRfc7 PRfc9 PRfc16 PRfc17 PRfc18 PRfc19 PRfc20 PRfc21.
Import ListNotations.
Open Scope N_scope.
Open Scope list_scope.

Definition block_rule : abnf := alt (list_of ";" fmtp_parameter)
  [ cats [nocase "apt"; Lit "="; at_most 255; opt (cats [Lit ";"; nocase "rtx-time"; Lit "="; at_most u32_max])];
    cats [at_most 128; Lit "/"; list_of "/" (at_most 128)];
    list_of "," event ].
Definition fpiece (t : str) : Prop := t = [] \/ gen fmtp_parameter t.
Lemma join_fpieces : forall l, Forall fpiece l -> join [59] (non_empty_vec l) = [] \/ gen (list_of ";" fmtp_parameter) (join [59] (non_empty_vec l)).
Proof.
  intros l F. assert (K : Forall (gen fmtp_parameter) (non_empty_vec l)).
  { induction F as [|t l T F IH]; [constructor|]. unfold non_empty_vec. cbn [filter]. destruct T as [->|T]; [exact IH|].
    destruct (non_empty t); [constructor; assumption|exact IH]. }
  destruct K as [|t m T K]; [left; reflexivity|]. right. apply g_list; [reflexivity|assumption|assumption].
Qed.
Definition named_limits : list (string * N) :=
  [("packetization-mode", 2); ("level-asymmetry-allowed", 1); ("max-mbps", u32_max); ("max-fs", u32_max);
   ("max-cpb", u32_max); ("max-dpb", u32_max); ("max-br", u32_max); ("max-fr", u32_max); ("profile", 2);
   ("level-idx", 31); ("tier", 1); ("maxplaybackrate", u32_max); ("maxaveragebitrate", u32_max);
   ("ptime", u32_max); ("maxptime", u32_max); ("minptime", u32_max); ("usedtx", 1); ("stereo", 1);
   ("useinbandfec", 1); ("cbr", 1)]%string.
Lemma g_named : forall name max x, In (name, max) named_limits -> x <= max -> gen fmtp_parameter ((of_string name ++ lit "=") ++ show_N x).
Proof.
  intros name max x M L. apply (g_alt_in _ _ (cats [nocase name; Lit "="; at_most max])).
  - right. apply in_app_iff. left. apply in_map_iff. exists (name, max). split; [reflexivity|exact M].
  - parts [of_string name; lit "="; show_N x]; [apply g_nocase_itself|apply g_number, L|flat].
Qed.
Ltac named := unfold named_limits; cbn [In]; tauto.
Lemma number_piece : forall name max x d, In (name, max) named_limits -> x <= max -> fpiece (maybe_param (of_string name ++ lit "=") x d).
Proof. intros name max x d M L. unfold maybe_param. destruct (x =? d); [left; reflexivity|right; exact (g_named _ _ _ M L)]. Qed.
Lemma option_piece : forall name max x, In (name, max) named_limits -> (forall y, x = Some y -> y <= max) ->
  fpiece (show_opt (of_string name ++ lit "=") show_N [] x).
Proof.
  intros name max [y|] M L; [|left; reflexivity]. right. cbn [show_opt]. rewrite app_nil_r. exact (g_named _ _ _ M (L y eq_refl)).
Qed.
Lemma flag_piece : forall name b, In (name, 1) named_limits -> fpiece (maybe_bool_param (of_string name) b false).
Proof.
  intros name b M. unfold maybe_bool_param. destruct b; [|left; reflexivity]. right.
  change (fpiece (of_string name ++ [c_eq] ++ show_bool_int true)) || idtac.
  assert (K := g_named name 1 1 M ltac:(lia)). rewrite <- app_assoc in K. exact K.
Qed.
Lemma level_piece : forall x, x <= 16777215 -> fpiece (maybe_param_str (lit "profile-level-id=") (pad0 6 (show_hex x)) (lit "42000a")).
Proof.
  intros x L. unfold maybe_param_str. destruct (str_eqb _ _); [left; reflexivity|]. right.
  eapply g_alt_in; [left; reflexivity|].
  parts [of_string "profile-level-id"; lit "="; pad0 6 (show_hex x)]; [apply g_nocase_itself| |flat]. apply gen_such.
  - apply g_many1; [apply pad0_nonempty, show_hex_nonempty|]. unfold pad0. apply Forall_app. split.
    + apply Forall_forall. intros c C. apply repeat_spec in C. subst c. lia.
    + eapply Forall_impl; [|apply PGram.show_hex_lower]. cbv beta. lia.
  - apply pad0_length. apply (PGrow.len_hex x 6); [|lia]. change (16 ^ N.of_nat 6) with 16777216. lia.
Qed.
Lemma unknown_piece : forall l, Forall (fun t => Forall param_char t) l -> 
  match l with [] => True | t :: _ => exists n v, t = n ++ 61 :: v /\ gen token n /\ ~ Exists (means_upper n) fmtp_names end ->
  fpiece (show_vec [] [] [c_comma] (fun s => s) l).
Proof.
  intros [|t l] F H; [left; reflexivity|]. right. destruct H as (n & v & -> & T & K). unfold show_vec. rewrite map_id, app_nil_r. cbn [app].
  assert (NE : non_empty (n ++ 61 :: v) = true) by (destruct n; reflexivity). cbn [filter]. rewrite NE. change [c_comma] with [44]. rewrite join_leads.
  eapply g_alt_in; [right; apply in_app_iff; right; left; reflexivity|].
  parts [n; lit "="; v ++ leads 44 (filter non_empty l)]; [apply gen_such; assumption| |flat].
  inversion F as [|? ? F1 F2]; subst. apply Forall_app in F1. destruct F1 as [_ F1]. inversion F1 as [|? ? _ F3]; subst.
  apply g_many. apply Forall_app. split; [exact F3|]. apply (leads_class param_char); [unfold param_char, vchar; lia|].
  clear -F2. induction F2 as [|u l U F IH]; [constructor|]. cbn [filter]. destruct (non_empty u); [constructor; assumption|exact IH].
Qed.
Lemma cuts_same2 : forall ps qs, Forall (fun nv => ~ In 61 (fst nv)) ps ->
  Forall2 (fun t nv => cut 61 t (fst nv) (snd nv)) (map eq_text ps) qs -> qs = ps.
Proof.
  intros ps. induction ps as [|[n v] ps IH]; intros qs F H; inversion H as [|? [a b] ? ? C H']; subst; [reflexivity|]. inversion F as [|? ? N F']; subst.
  rewrite (IH _ F' H'). cbn [fst snd] in *.
  destruct (PVal.cut_fun _ _ _ _ n v C) as [-> ->]; [split; [reflexivity|exact N]|reflexivity].
Qed.
Lemma rtx_absent : forall ps r, rtx_value ps r -> Forall not_rtx ps -> r = None.
Proof.
  intros ps r R. induction R as [|ps r n v x R IH M U|ps r n v x R IH M U|ps r n v R IH A B]; intro F; [reflexivity| | |];
    apply Forall_app in F; destruct F as [F G]; inversion G as [|? ? [G1 G2] _]; subst; cbn [fst] in *; try contradiction. exact (IH F).
Qed.
Lemma rtx_printed : forall ps r, rtx_value ps r -> match r with Some q => rtx_apt q <= 255 /\ forall t, rtx_time q = Some t -> t <= u32_max | None =>
    Forall (fun nv => ~ means_upper (fst nv) "APT") ps end.
Proof.
  intros ps r R. induction R as [|ps r n v x R IH M U|ps r n v x R IH M U|ps r n v R IH A B].
  - constructor.
  - cbn [rtx_apt rtx_time]. split; [exact (numeral_most _ _ _ U)|discriminate].
  - cbn [rtx_apt rtx_time]. split; [apply IH|]. intros t Q. injection Q as <-. exact (numeral_most _ _ _ U).
  - destruct r as [q|]; [exact IH|]. apply Forall_app. split; [exact IH|]. constructor; [exact A|constructor].
Qed.
Definition out_fmtp (nv : str * str) : Prop :=
  ~ In 61 (fst nv) /\ Forall param_char (eq_text nv) /\ (~ Exists (means_upper (fst nv)) fmtp_names -> gen token (fst nv)).
Lemma list_printed : forall ps p, Forall out_fmtp ps -> fmtp_list_value (map eq_text ps) p -> rtx p = None ->
  show_fmtp_params p = [] \/ gen (list_of ";" fmtp_parameter) (show_fmtp_params p).
Proof.
  intros ps p F (qs & Q & V) R. apply cuts_same2 in Q; [|eapply Forall_impl; [|exact F]; intros nv H; apply H]. subst qs. cbv zeta in V.
  destruct V as (X0 & X1 & X2 & X3 & X4 & X5 & X6 & X7 & X8 & X9 & X10 & X11 & X12 & X13 & X14 & X15 & X16 & X17 & X18 & X19 & X20 & _ & EN & DT & us & U & UT).
  unfold show_fmtp_params. rewrite R, DT, EN. cbn [non_empty].
  assert (L : forall name max d x, d <= max -> field_of (fun n => means_upper n name) ps (numeral max) d x -> x <= max).
  { intros name max d x D X. apply field_from in X. destruct X as [->|(n & v & _ & _ & X)]; [exact D|exact (numeral_most _ _ _ X)]. }
  assert (O : forall name max x, option_field (fun n => means_upper n name) ps (numeral max) x -> forall y, x = Some y -> y <= max).
  { intros name max x X y ->. apply option_from in X. destruct X as (n & v & _ & _ & X). exact (numeral_most _ _ _ X). }
  assert (Z : 0 <= u32_max) by lia. assert (Z2 : 48000 <= u32_max) by (vm_compute; discriminate).
  apply join_fpieces. unfold fmtp_param_list.
  repeat (apply Forall_cons); [..|apply Forall_nil].
  - apply level_piece. apply field_from in X0. destruct X0 as [->|(n & v & _ & _ & X)]; [lia|].
    destruct X as (ds & ns & _ & _ & _ & _ & X). exact X.
  - apply (flag_piece "level-asymmetry-allowed"). named.
  - apply (number_piece "packetization-mode" 2); [named|]. exact (L _ 2 0 _ ltac:(lia) X1).
  - apply (number_piece "max-fs" u32_max); [named|exact (L _ _ _ _ Z X4)].
  - apply (number_piece "max-cpb" u32_max); [named|exact (L _ _ _ _ Z X5)].
  - apply (number_piece "max-dpb" u32_max); [named|exact (L _ _ _ _ Z X6)].
  - apply (number_piece "max-br" u32_max); [named|exact (L _ _ _ _ Z X7)].
  - apply (number_piece "max-mbps" u32_max); [named|exact (L _ _ _ _ Z X3)].
  - apply (number_piece "max-fr" u32_max); [named|exact (L _ _ _ _ Z X8)].
  - apply (option_piece "profile" 2); [named|exact (O _ _ _ X9)].
  - apply (option_piece "level-idx" 31); [named|exact (O _ _ _ X10)].
  - apply (option_piece "tier" 1); [named|exact (O _ _ _ X11)].
  - apply (number_piece "maxplaybackrate" u32_max); [named|exact (L _ _ _ _ Z2 X12)].
  - apply (number_piece "maxaveragebitrate" u32_max); [named|exact (L _ _ _ _ Z X13)].
  - apply (number_piece "ptime" u32_max); [named|exact (L _ _ _ _ Z X14)].
  - apply (number_piece "minptime" u32_max); [named|exact (L _ _ _ _ Z X16)].
  - apply (number_piece "maxptime" u32_max); [named|exact (L _ _ _ _ Z X15)].
  - apply (flag_piece "usedtx"). named.
  - apply (flag_piece "stereo"). named.
  - apply (flag_piece "useinbandfec"). named.
  - apply (flag_piece "cbr"). named.
  - rewrite UT. pose proof (others_from _ _ _ U) as M. rewrite Forall_forall in F. apply unknown_piece.
    + apply Forall_map, Forall_forall. intros nv I. apply M in I. exact (proj1 (proj2 (F _ (proj1 I)))).
    + destruct us as [|[n v] us]; [exact I|]. cbn [map fst snd]. exists n, v. split; [reflexivity|].
      destruct (M (n, v) (or_introl eq_refl)) as [M1 M2]. destruct (F _ M1) as (_ & _ & T). auto.
Qed.

Section WithExt.
Context {E : Ext}.
Lemma parameter_out : forall t, gen fmtp_parameter t -> exists nv, t = eq_text nv /\ not_rtx nv /\ out_fmtp nv.
Proof.
  intros t H. destruct (g_parameter t H) as (nv & -> & GA & GB & GC). exists nv. split; [reflexivity|]. split; [exact GB|].
  destruct GA as (N & _). split; [exact N|]. split; [exact GC|]. intro K.
  destruct nv as [n v]. unfold eq_text in *. cbn [fst snd] in *.
  apply g_inv_alt in H. destruct H as [r [M H]].
  assert (NK : forall w x y, recased x (of_string w) -> forall name, map ascii_lower (of_string w) = map ascii_lower (of_string name) ->
    upper_word (of_string name) = true -> In name fmtp_names -> n ++ 61 :: v = x ++ 61 :: y -> ~ In 61 x -> gen token n).
  { intros w x y R name Q U I Q2 X. exfalso. destruct (PVal.cut_fun 61 (n ++ 61 :: v) n v x y) as [-> _]; [split; [reflexivity|exact N]|split; assumption|].
    apply K, Exists_exists. exists name. split; [exact I|]. apply means_upper_iff; [exact U|]. exact (recased_name _ _ _ R U Q). }
  destruct M as [<-|M].
  - apply g_inv_cats in H. destruct H as [zs [Z Q]]. inversion Z as [|? x ? ? G Z1]; subst. inversion Z1 as [|? e ? ? G0 Z2]; subst. apply g_inv_lit in G0. subst e.
    apply g_inv_nocase in G.
    assert (B : Forall param_char x /\ ~ In 61 x) by (apply param_ok, (recased_chars _ _ _ G); reflexivity).
    eapply (NK _ x _ G "PROFILE-LEVEL-ID"%string eq_refl eq_refl); [unfold fmtp_names; cbn [In]; tauto|exact Q|apply B].
  - apply in_app_iff in M. destruct M as [M|[<-|[]]].
    + apply in_map_iff in M. destruct M as [[w max] [<- M]]. cbn [fst snd] in H.
      apply g_inv_cats in H. destruct H as [zs [Z Q]]. inversion Z as [|? x ? ? G Z1]; subst. inversion Z1 as [|? e ? ? G0 Z2]; subst. apply g_inv_lit in G0. subst e.
      apply g_inv_nocase in G.
      assert (J : exists name, In name fmtp_names /\ map ascii_lower (of_string w) = map ascii_lower (of_string name) /\ upper_word (of_string name) = true /\
        forallb (fun d => forallb param_b (map (fun c => c) [d; ascii_lower d; (if (97 <=? ascii_lower d) && (ascii_lower d <=? 122) then ascii_lower d - 32 else d)])) (of_string w) = true).
      { match type of M with In _ ?l => assert (J : forallb (fun nm =>
          forallb (fun d => forallb param_b (map (fun c => c) [d; ascii_lower d; (if (97 <=? ascii_lower d) && (ascii_lower d <=? 122) then ascii_lower d - 32 else d)])) (of_string (fst nm)) &&
          existsb (fun lm => upper_word (of_string lm) && str_eqb (map ascii_lower (of_string (fst nm))) (map ascii_lower (of_string lm))) fmtp_names) l = true)
          by (vm_compute; reflexivity) end.
        rewrite forallb_forall in J. specialize (J _ M). cbn [fst snd] in J. apply andb_prop in J. destruct J as [J1 J2].
        apply existsb_exists in J2. destruct J2 as [name [I J2]]. apply andb_prop in J2. destruct J2 as [J2 J3].
        apply str_eqb_eq in J3. exists name. auto. }
      destruct J as (name & I & Q1 & U & C).
      assert (B : Forall param_char x /\ ~ In 61 x) by (apply param_ok, (recased_chars _ _ _ G), C).
      eapply (NK _ x _ G name Q1 U I); [exact Q|apply B].
    + apply g_inv_cats in H. destruct H as [zs [Z Q]]. inversion Z as [|? x ? ? G Z1]; subst. inversion Z1 as [|? e ? ? G0 Z2]; subst. apply g_inv_lit in G0. subst e.
      apply g_inv_such in G. destruct G as [G _]. pose proof G as T. apply g_token in T. destruct T as [_ T].
      destruct (PVal.cut_fun 61 (n ++ 61 :: v) n v x (List.concat l'0)) as [-> _]; [split; [reflexivity|exact N]|split; [exact Q|]|exact G].
      apply (class_no _ _ _ T). unfold token_char. lia.
Qed.
Lemma list_tokens : forall t l p, Forall (fun t => t <> [] /\ Forall param_char t) (t :: l) -> In 61 (t ++ leads 59 l) -> fmtp_block_value (t ++ leads 59 l) p ->
  fmtp_list_value (t :: l) p.
Proof.
  intros t l p F I [[_ (ts & X & V)]|[(K & _)|(K & _)]]; try contradiction.
  assert (S : Forall (fun t => ~ In 59 t) (t :: l)).
  { eapply Forall_impl; [|exact F]. intros u [_ T]. apply (class_no _ _ _ T). unfold param_char. lia. }
  assert (Y : split 59 (t ++ leads 59 l) = t :: l) by (inversion S; subst; apply fields_split, fields_leads; assumption).
  apply fields_split in X. rewrite Y in X. subst ts.
  replace (filter _ (t :: l)) with (t :: l) in V; [exact V|].
  clear -F. generalize dependent (t :: l). intros k F. induction F as [|u m [T _] F IH]; [reflexivity|]. cbn [filter]. destruct u; [congruence|]. rewrite <- IH. reflexivity.
Qed.
Lemma in_eq : forall nv l, In 61 (eq_text nv ++ leads 59 l).
Proof. intros nv l. apply in_app_iff. left. apply in_app_iff. right. left. reflexivity. Qed.
Lemma out_text : forall ps, Forall out_fmtp ps -> Forall (fun t => t <> [] /\ Forall param_char t) (map eq_text ps).
Proof.
  intros ps F. apply Forall_map. eapply Forall_impl; [|exact F]. intros nv (_ & C & _). split; [apply eq_text_nonempty|exact C].
Qed.
Lemma block_printed : forall x p, gen block_rule x -> fmtp_block_value x p ->
  show_fmtp_params p = [] \/ gen block_rule (show_fmtp_params p).
Proof.
  intros x p G V. apply g_inv_alt in G. destruct G as [r [M H]]. cbn [In] in M. destruct M as [<-|[<-|[<-|[<-|[]]]]].
  - apply (g_inv_list 59) in H; [|reflexivity]. destruct H as [y [l [F ->]]].
    assert (K : exists nv ps, y :: l = map eq_text (nv :: ps) /\ Forall not_rtx (nv :: ps) /\ Forall out_fmtp (nv :: ps)).
    { inversion F as [|? ? H F']; subst. apply parameter_out in H. destruct H as (nv & -> & A1 & A2). exists nv.
      assert (J : exists ps, l = map eq_text ps /\ Forall not_rtx ps /\ Forall out_fmtp ps).
      { clear -F'. induction F' as [|t l H F (ps & -> & IH1 & IH2)]; [exists []; repeat split; constructor|].
        apply parameter_out in H. destruct H as (nv & -> & A1 & A2). exists (nv :: ps). repeat split; constructor; assumption. }
      destruct J as (ps & -> & B1 & B2). exists ps. repeat split; constructor; assumption. }
    destruct K as (nv & ps & Q & A1 & A2). cbn [map] in Q. injection Q as -> ->.
    apply (list_tokens (eq_text nv) (map eq_text ps)) in V; [|exact (out_text _ A2)|apply in_eq].
    assert (R : rtx p = None).
    { pose proof V as (qs & Q & V'). apply (cuts_same2 (nv :: ps)) in Q; [|eapply Forall_impl; [|exact A2]; intros ? H; apply H]. subst qs. cbv zeta in V'.
      apply (rtx_absent (nv :: ps)); [|exact A1]. tauto. }
    destruct (list_printed (nv :: ps) p A2 V R) as [Z|Z]; [left; exact Z|]. right. eapply g_alt_in; [left; reflexivity|exact Z].
  - assert (K : exists ps, x = match ps with [] => [] | nv :: ps => eq_text nv ++ leads 59 (map eq_text ps) end /\ Forall out_fmtp ps /\
      Exists (fun nv => means_upper (fst nv) "APT") ps).
    { assert (KN : forall n v name, to_upper n = of_string name -> upper_word (of_string name) = true -> In name fmtp_names -> Forall param_char n -> ~ In 61 n -> Forall SpecVal.is_digit v -> out_fmtp (n, v)).
      { intros n v name U W I C N D. split; [exact N|]. split.
        - unfold eq_text. cbn [fst snd]. apply Forall_app. split; [exact C|]. constructor; [unfold param_char, vchar; lia|].
          eapply Forall_impl; [|exact D]. exact digit_param.
        - intro X. exfalso. apply X, Exists_exists. exists name. split; [exact I|]. apply means_upper_iff; [exact W|exact U]. }
      clear V. pieces H. rename x2 into w. rename x1 into x2. rename x into x0. apply g_inv_nocase in G.
      assert (B : Forall param_char x0 /\ ~ In 61 x0) by (apply param_ok, (recased_chars _ _ _ G); reflexivity).
      pose proof (recased_name _ _ "APT" G eq_refl eq_refl) as U.
      assert (MA : means_upper x0 "APT") by (apply means_upper_iff; [reflexivity|exact U]).
      apply PRfc.g_at_most in G1. destruct G1 as (W2 & D2 & U2).
      assert (OA : out_fmtp (x0, x2)) by (apply (KN _ _ "APT"%string); auto; [unfold fmtp_names; cbn [In]; tauto|apply B|apply B]).
      apply g_inv_opt in G2. destruct G2 as [->|H].
      + exists [(x0, x2)]. split; [unfold eq_text; cbn [List.concat leads flat_map map fst snd app]; rewrite ?app_nil_r; reflexivity|].
        split; [constructor; [exact OA|constructor]|left; exact MA].
      + pieces H. rename x1 into x3. rename x4 into x5. apply g_inv_nocase in G1.
        assert (B2 : Forall param_char x3 /\ ~ In 61 x3) by (apply param_ok, (recased_chars _ _ _ G1); reflexivity).
        pose proof (recased_name _ _ "RTX-TIME" G1 eq_refl eq_refl) as U'.
        apply PRfc.g_at_most in G3. destruct G3 as (W4 & D4 & U4).
        exists [(x0, x2); (x3, x5)]. split; [unfold eq_text; cbn [List.concat leads flat_map map fst snd app];
          repeat (rewrite <- app_assoc; cbn [app]); rewrite ?app_nil_r; reflexivity|].
        split; [constructor; [exact OA|constructor; [|constructor]]|left; exact MA].
        apply (KN _ _ "RTX-TIME"%string); auto; [unfold fmtp_names; cbn [In]; tauto|apply B2|apply B2]. }
    clear H. destruct K as ([|nv ps] & Q & A2 & A3); [inversion A3|]. rewrite Q in V. clear x Q.
    apply (list_tokens (eq_text nv) (map eq_text ps)) in V; [|exact (out_text _ A2)|apply in_eq].
    assert (R : rtx_value (nv :: ps) (rtx p)).
    { pose proof V as (qs & Q & V'). apply (cuts_same2 (nv :: ps)) in Q; [|eapply Forall_impl; [|exact A2]; intros ? H; apply H]. subst qs. cbv zeta in V'. tauto. }
    apply rtx_printed in R. destruct (rtx p) as [q|] eqn:QR.
    + right. unfold show_fmtp_params. rewrite QR. eapply g_alt_in; [right; left; reflexivity|]. unfold show_rtx.
      destruct R as [R1 R2]. destruct (rtx_time q) as [tm|].
      * parts [of_string "apt"; lit "="; show_N (rtx_apt q); lit ";rtx-time=" ++ show_N tm]; [apply g_nocase_itself|apply g_number, R1| |flat].
        apply g_opt. parts [lit ";"; of_string "rtx-time"; lit "="; show_N tm]; [apply g_nocase_itself|apply g_number; auto|flat].
      * parts [of_string "apt"; lit "="; show_N (rtx_apt q); []:str]; [apply g_nocase_itself|apply g_number, R1|apply g_none|flat].
    + exfalso. rewrite Forall_forall in R. apply Exists_exists in A3. destruct A3 as [nv' [I K]]. exact (R _ I K).
  - pieces H. rename x into x0. apply (g_inv_list 47) in G1; [|reflexivity]. destruct G1 as [y [l [F ->]]].
    assert (FA : Forall (fun t => word t /\ Forall SpecVal.is_digit t /\ numeral 128 t (dec_value t)) (x0 :: y :: l)).
    { apply (Forall_impl _ (PRfc.g_at_most 128)). constructor; assumption. }
    replace (List.concat _) with (x0 ++ leads 47 (y :: l)) in V by
      (cbn [List.concat leads flat_map app]; rewrite ?app_nil_r; reflexivity).
    assert (SA : Forall (fun t => ~ In 47 t) (x0 :: y :: l)).
    { eapply Forall_impl; [|exact FA]. intros t (_ & D & _). apply (class_no _ _ _ D). unfold SpecVal.is_digit. lia. }
    assert (C : Forall (fun c => SpecVal.is_digit c \/ c = 47) (x0 ++ leads 47 (y :: l))).
    { assert (J : Forall (Forall (fun c => SpecVal.is_digit c \/ c = 47)) (x0 :: y :: l)).
      { eapply Forall_impl; [|exact FA]. intros t (_ & D & _). eapply Forall_impl; [|exact D]. cbv beta. tauto. }
      inversion J; subst. apply Forall_app. split; [assumption|]. apply leads_class; [tauto|assumption]. }
    assert (I47 : In 47 (x0 ++ leads 47 (y :: l))) by (apply in_app_iff; right; left; reflexivity).
    destruct V as [[K _]|[(_ & _ & ts & X & N & P)|(_ & K & _)]]; [exfalso; revert K; apply (class_no _ _ _ C); unfold SpecVal.is_digit; lia| |contradiction].
    assert (Y : split 47 (x0 ++ leads 47 (y :: l)) = x0 :: y :: l) by (inversion SA; subst; apply fields_split, fields_leads; assumption).
    apply fields_split in X. rewrite Y in X. subst ts.
    right. eapply g_alt_in; [right; right; left; reflexivity|].
    inversion N as [|? a ? es Na N1 Q Q1]; subst. inversion N1 as [|? b ? es' Nb N2 Q2 Q3]; subst.
    replace (show_fmtp_params p) with (join [47] (map show_N (a :: b :: es'))).
    + cbn [map]. rewrite join_leads.
      parts [show_N a; lit "/"; join [47] (map show_N (b :: es'))]; [apply g_number; exact (numeral_most _ _ _ Na)| |cbn [map]; rewrite join_leads; cbn [leads flat_map]; flat].
      cbn [map]. apply g_list; [reflexivity|apply g_number; exact (numeral_most _ _ _ Nb)|].
      clear -N2. induction N2 as [|? ? ? ? U N IH]; [constructor|]. cbn [map]. constructor; [apply g_number; exact (numeral_most _ _ _ U)|exact IH].
    + rewrite P, <- Q1. reflexivity.
  - pose proof H as GH. apply (g_inv_list 44) in H; [|reflexivity]. destruct H as [y [l [F ->]]].
    assert (FA : Forall (fun t => t <> [] /\ Forall (fun c => SpecVal.is_digit c \/ c = 45 \/ c = 44) t) (y :: l)).
    { eapply Forall_impl; [|exact F]. intros t T. apply g_inv_or in T. destruct T as [T|T].
      - apply PRfc.g_at_most in T. destruct T as ([N _] & D & _). split; [exact N|]. eapply Forall_impl; [|exact D]. cbv beta. tauto.
      - pieces T. apply PRfc.g_at_most in G, G1. destruct G as ([N _] & D & _), G1 as (_ & D1 & _). cbn [List.concat]. rewrite app_nil_r.
        split; [destruct x; [congruence|discriminate]|]. apply Forall_app. split; [eapply Forall_impl; [|exact D]; cbv beta; tauto|].
        constructor; [tauto|]. eapply Forall_impl; [|exact D1]; cbv beta; tauto. }
    assert (C : Forall (fun c => SpecVal.is_digit c \/ c = 45 \/ c = 44) (y ++ leads 44 l)).
    { assert (J : Forall (Forall (fun c => SpecVal.is_digit c \/ c = 45 \/ c = 44)) (y :: l)) by (eapply Forall_impl; [|exact FA]; cbv beta; tauto).
      inversion J; subst. apply Forall_app. split; [assumption|]. apply leads_class; [tauto|assumption]. }
    assert (N61 : ~ In 61 (y ++ leads 44 l)) by (apply (class_no _ _ _ C); unfold SpecVal.is_digit; lia).
    assert (N47 : ~ In 47 (y ++ leads 44 l)) by (apply (class_no _ _ _ C); unfold SpecVal.is_digit; lia).
    assert (NE : non_empty (y ++ leads 44 l) = true) by (inversion FA as [|? ? [N _] _]; subst; destruct y; [congruence|reflexivity]).
    destruct V as [[K _]|[(_ & K & _)|(_ & _ & P & [[_ T]|[_ T]])]]; [contradiction|contradiction| |]; right; rewrite P, T;
      (eapply g_alt_in; [do 3 right; left; reflexivity|]); unfold show_fmtp_params; cbn [rtx set_dtmf_tones fmtp_defaults dtmf_tones encodings].
    + rewrite NE. exact GH.
    + cbn [non_empty]. apply (g_list 44 "," event (lit "0-15") []); [reflexivity| |constructor]. apply gen_or_right.
      parts [show_N 0; lit "-"; show_N 15]; [apply g_number; lia|apply g_number; lia|flat].
Qed.
Lemma fmtp_again : forall t n, gen (cats [Lit "a="; Lit "fmtp"; Lit ":"; rfc_fmtp]) t -> exists f,
  parse_sdp_line t n = Ok {| l_number := n; l_type := TyAttribute (AFmtp f); l_text := t |} /\
  (printed_line (TyAttribute (AFmtp f)) = lit "a=" \/
   gen (cats [Lit "a="; Lit "fmtp"; Lit ":"; rfc_fmtp]) (printed_line (TyAttribute (AFmtp f)))).
Proof.
  intros t n G. pieces G. rename x2 into v. rename G2 into H. pieces H. rename G1 into GB. pose proof G as GP.
  apply PRfc.g_at_most in G. destruct G as (W & D & U). destruct (block_read _ GB) as (p & P & S).
  exists {| fmtp_payload_type := dec_value x; fmtp_parameters := p |}. split.
  - match goal with |- parse_sdp_line ?u _ = _ => replace u with (lit "a=" ++ of_string (sdp_name (AFmtp {| fmtp_payload_type := dec_value x; fmtp_parameters := p |})) ++ 58 :: x ++ 32 :: x1) by flat end.
    assert (En : ends_solid (x ++ 32 :: x1)) by (apply ends_app, ends_cons, S).
    apply attr_line; [|exact I]. rewrite trim_end_id; [|destruct En as [c [y [Q C]]]; exists y, c; auto].
    eexists. exists x, x1. split; [apply core_self; [apply starts_app, word_starts, W|exact En]|].
    split; [split; [reflexivity|]|auto]. apply (class_no _ _ _ D). unfold SpecVal.is_digit. lia.
  - apply (block_printed _ p) in GB; [|exact P]. unfold printed_line. cbn [line_letter item_text show_attr]. unfold show_fmtp. cbn [fmtp_payload_type fmtp_parameters].
    destruct (show_fmtp_params p) as [|c u] eqn:Q; [left; reflexivity|]. destruct GB as [GB|GB]; [discriminate GB|]. right. cbn [is_empty].
    rewrite (words_shown TFmtp _ _ (word_N (dec_value x))).
    parts [lit "a="; lit "fmtp"; lit ":"; show_N (dec_value x) ++ 32 :: c :: u]; [|flat].
    parts [show_N (dec_value x); lit " "; c :: u]; [apply g_again, GP|exact GB|flat].
Qed.
End WithExt.

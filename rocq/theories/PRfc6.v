(** * The lines of the RFCs are accepted (C62): fmtp *)
From Coq Require Import List Arith NArith ZArith Lia Bool Ascii String.
From Coq Require Import ZifyBool ZifyNat ZifyN.
From Verif Require Import Str Num Net Types Ext Show Address AttrParse Media Session SpecApi SpecDoc SpecVal SpecItems
  SpecPrint SpecIp SpecGrammar.
From Verif Require Import StrLemmas NumLemmas NetLemmas PVal PVal2 PVal5 PVal6 PVal8 PVal9 PVal10 PVal11 PPrint PPrint2 PPrint3 PPrint4
  PPrint9 PPrint11 PIp PIp2.
From Verif Require Import SpecRfc PRfc PRfc2 PRfc3 PRfc4 PRfc5.
Import ListNotations.
Open Scope N_scope.
Open Scope list_scope.

(** The parameters with a number, as the code spells them, and their limits. *)
Definition limits : list (string * N) :=
  [("PACKETIZATION-MODE", 2); ("LEVEL-ASYMMETRY-ALLOWED", 1); ("MAX-MBPS", u32_max); ("MAX-FS", u32_max);
   ("MAX-CPB", u32_max); ("MAX-DPB", u32_max); ("MAX-BR", u32_max); ("MAX-FR", u32_max); ("PROFILE", 2);
   ("LEVEL-IDX", 31); ("TIER", 1); ("MAXPLAYBACKRATE", u32_max); ("MAXAVERAGEBITRATE", u32_max);
   ("PTIME", u32_max); ("MAXPTIME", u32_max); ("MINPTIME", u32_max); ("USEDTX", 1); ("STEREO", 1);
   ("USEINBANDFEC", 1); ("CBR", 1)]%string.
Definition good_fmtp (nv : str * str) : Prop :=
  ~ In 61 (fst nv) /\
  (means_upper (fst nv) "PROFILE-LEVEL-ID" -> exists y, hex_numeral 16777215 (snd nv) y) /\
  forall name max, In (name, max) limits -> means_upper (fst nv) name -> exists y, numeral max (snd nv) y.
Lemma limits_upper : forall name max, In (name, max) limits -> upper_word (of_string name) = true.
Proof.
  intros name max H. assert (K : forallb (fun nm => upper_word (of_string (fst nm))) limits = true) by reflexivity.
  rewrite forallb_forall in K. exact (K _ H).
Qed.
Lemma fmtp_list_exists : forall ps, Forall good_fmtp ps -> (exists r, rtx_value ps r) ->
  exists p, fmtp_list_value (map eq_text ps) p.
Proof.
  intros ps F [r R].
  assert (K : forall name max d, In (name, max) limits -> exists x, field_of (fun n => means_upper n name) ps (numeral max) d x).
  { intros name max d M. apply (field_exists _ _ _ _ _ (upper_test name (limits_upper _ _ M))).
    eapply Forall_impl; [|exact F]. intros nv (_ & _ & H). exact (H name max M). }
  assert (KO : forall name max, In (name, max) limits -> exists x, option_field (fun n => means_upper n name) ps (numeral max) x).
  { intros name max M. apply (option_exists _ _ _ _ (upper_test name (limits_upper _ _ M))).
    eapply Forall_impl; [|exact F]. intros nv (_ & _ & H). exact (H name max M). }
  assert (KF : forall name, In (name, 1) limits -> exists x, field_of (fun n => means_upper n name) ps flag_numeral false x).
  { intros name M. apply (field_exists _ _ _ _ _ (upper_test name (limits_upper _ _ M))).
    eapply Forall_impl; [|exact F]. intros nv (_ & _ & H) I. destruct (H name 1 M I) as [y Y].
    unfold flag_numeral. assert (B : y = 0 \/ y = 1) by (destruct Y as (ds & _ & _ & _ & _ & L); lia).
    destruct B as [->| ->]; [exists false|exists true]; exact Y. }
  destruct (field_exists (fun n => means_upper n "PROFILE-LEVEL-ID") _ (hex_numeral 16777215) (66 * 65536 + 10) ps
    (upper_test "PROFILE-LEVEL-ID" eq_refl)) as [x0 X0]; [eapply Forall_impl; [|exact F]; intros nv (_ & H & _); exact H|].
  Ltac lim := unfold limits; cbn [In]; tauto.
  destruct (K "PACKETIZATION-MODE"%string 2 0) as [x1 X1]; [lim|]. destruct (KF "LEVEL-ASYMMETRY-ALLOWED"%string) as [x2 X2]; [lim|].
  destruct (K "MAX-MBPS"%string u32_max 0) as [x3 X3]; [lim|]. destruct (K "MAX-FS"%string u32_max 0) as [x4 X4]; [lim|].
  destruct (K "MAX-CPB"%string u32_max 0) as [x5 X5]; [lim|]. destruct (K "MAX-DPB"%string u32_max 0) as [x6 X6]; [lim|].
  destruct (K "MAX-BR"%string u32_max 0) as [x7 X7]; [lim|]. destruct (K "MAX-FR"%string u32_max 0) as [x8 X8]; [lim|].
  destruct (KO "PROFILE"%string 2) as [x9 X9]; [lim|]. destruct (KO "LEVEL-IDX"%string 31) as [x10 X10]; [lim|].
  destruct (KO "TIER"%string 1) as [x11 X11]; [lim|]. destruct (K "MAXPLAYBACKRATE"%string u32_max 48000) as [x12 X12]; [lim|].
  destruct (K "MAXAVERAGEBITRATE"%string u32_max 0) as [x13 X13]; [lim|]. destruct (K "PTIME"%string u32_max 0) as [x14 X14]; [lim|].
  destruct (K "MAXPTIME"%string u32_max 0) as [x15 X15]; [lim|]. destruct (K "MINPTIME"%string u32_max 0) as [x16 X16]; [lim|].
  destruct (KF "USEDTX"%string) as [x17 X17]; [lim|]. destruct (KF "STEREO"%string) as [x18 X18]; [lim|].
  destruct (KF "USEINBANDFEC"%string) as [x19 X19]; [lim|]. destruct (KF "CBR"%string) as [x20 X20]; [lim|].
  destruct (others_exists (fun n => Exists (means_upper n) fmtp_names) _ ps (fun n => exists_means_upper fmtp_names n eq_refl)) as [us U].
  exists {| packetization_mode := x1; level_asymmetry_allowed := x2; profile_level_id := x0; max_fs := x4; max_cpb := x5; max_dpb := x6;
    max_br := x7; max_mbps := x3; max_fr := x8; profile := x9; level_idx := x10; tier := x11; maxplaybackrate := x12;
    maxaveragebitrate := x13; usedtx := x17; stereo := x18; useinbandfec := x19; cbr := x20; ptime := x14; minptime := x16;
    maxptime := x15; encodings := []; dtmf_tones := []; rtx := r; unknown_tokens := map (fun nv => fst nv ++ 61 :: snd nv) us |}.
  exists ps. split; [apply (eq_cut good_fmtp); [intros nv H; apply H|exact F]|]. cbv zeta.
  cbn [packetization_mode level_asymmetry_allowed profile_level_id max_fs max_cpb max_dpb max_br max_mbps max_fr profile level_idx
    tier maxplaybackrate maxaveragebitrate usedtx stereo useinbandfec cbr ptime minptime maxptime encodings dtmf_tones rtx unknown_tokens].
  split; [exact X0|]. split; [exact X1|]. split; [exact X2|]. split; [exact X3|]. split; [exact X4|]. split; [exact X5|].
  split; [exact X6|]. split; [exact X7|]. split; [exact X8|]. split; [exact X9|]. split; [exact X10|]. split; [exact X11|].
  split; [exact X12|]. split; [exact X13|]. split; [exact X14|]. split; [exact X15|]. split; [exact X16|]. split; [exact X17|].
  split; [exact X18|]. split; [exact X19|]. split; [exact X20|]. split; [exact R|]. split; [reflexivity|]. split; [reflexivity|].
  exists us. auto.
Qed.
Lemma no_rtx : forall ps, Forall (fun nv => ~ means_upper (fst nv) "APT" /\ ~ means_upper (fst nv) "RTX-TIME") ps -> rtx_value ps None.
Proof.
  intros ps. induction ps as [|[n v] ps IH] using rev_ind; intro F; [constructor|].
  apply Forall_app in F. destruct F as [F G]. inversion G as [|? ? [A B] _]; subst. apply rtx_other; auto.
Qed.
(** A name in any case of letters is the upper-case name, and no other. *)
Lemma recased_name : forall n w name, recased n (of_string w) -> upper_word (of_string name) = true ->
  map ascii_lower (of_string w) = map ascii_lower (of_string name) -> to_upper n = of_string name.
Proof. intros n w name R U M. apply means_upper_iff; [exact U|]. apply (recased_to _ _ _ R M). Qed.
Definition param_char (c : N) : Prop := vchar c /\ c <> 59.
Lemma recased_chars : forall (P : N -> bool) t w, recased t w -> forallb (fun d => forallb P (map (fun c => c) [d; ascii_lower d; (if (97 <=? ascii_lower d) && (ascii_lower d <=? 122) then ascii_lower d - 32 else d)])) w = true ->
  forallb P t = true.
Proof.
  intros P t w H. induction H as [|c d t w C H IH]; intro K; [reflexivity|]. cbn [forallb] in K |- *.
  apply andb_prop in K. destruct K as [K1 K2]. rewrite (IH K2), Bool.andb_true_r. cbn [map forallb] in K1.
  apply andb_prop in K1. destruct K1 as [A K1]. apply andb_prop in K1. destruct K1 as [B K1]. apply andb_prop in K1. destruct K1 as [D _].
  unfold same_letter in C. clear -A B C D.
  assert (J : c = d \/ c = ascii_lower d \/ (97 <= ascii_lower d <= 122 /\ c = ascii_lower d - 32)).
  { unfold ascii_lower in *. destruct ((65 <=? c) && (c <=? 90)) eqn:X; destruct ((65 <=? d) && (d <=? 90)) eqn:Y; lia. }
  destruct J as [->|[->|[J ->]]]; [exact A|exact B|].
  replace ((97 <=? ascii_lower d) && (ascii_lower d <=? 122)) with true in D by lia. exact D.
Qed.
Definition param_b (c : N) : bool := (33 <=? c) && (c <=? 126) && negb (c =? 59) && negb (c =? 61).
Lemma param_ok : forall t, forallb param_b t = true -> Forall param_char t /\ ~ In 61 t.
Proof.
  intros t H. rewrite forallb_forall in H. split.
  - apply Forall_forall. intros c C. apply H in C. unfold param_b in C. unfold param_char, vchar. lia.
  - intro C. apply H in C. discriminate C.
Qed.
Lemma digit_param : forall c, is_digit c -> param_char c.
Proof. intros c H. unfold is_digit in H. unfold param_char, vchar. lia. Qed.
Definition not_rtx (nv : str * str) : Prop := ~ means_upper (fst nv) "APT" /\ ~ means_upper (fst nv) "RTX-TIME".
(** A pair whose name is [name]. *)
Lemma good_named : forall n v name, ~ In 61 n -> to_upper n = of_string name ->
  (name = "PROFILE-LEVEL-ID"%string -> exists y, hex_numeral 16777215 v y) ->
  (forall max, In (name, max) limits -> exists y, numeral max v y) -> good_fmtp (n, v).
Proof.
  intros n v name N U H K. split; [exact N|]. split; cbn [fst snd].
  - intro M. apply H. apply means_upper_iff in M; [|reflexivity]. rewrite U in M. apply of_string_inj, M.
  - intros name' max I M. apply (means_upper_iff _ _ (limits_upper _ _ I)) in M. rewrite U in M. apply of_string_inj in M. subst name'.
    exact (K max I).
Qed.
Lemma not_rtx_named : forall n v name, to_upper n = of_string name -> name <> "APT"%string -> name <> "RTX-TIME"%string -> not_rtx (n, v).
Proof.
  intros n v name U A B. split; intro M; cbn [fst] in M; apply means_upper_iff in M; try reflexivity; rewrite U in M;
    apply of_string_inj in M; auto.
Qed.
Lemma limits_fun : forall name a b, In (name, a) limits -> In (name, b) limits -> a = b.
Proof.
  assert (K : forallb (fun x => forallb (fun y => negb (String.eqb (fst x) (fst y)) || (snd x =? snd y)) limits) limits = true) by (vm_compute; reflexivity).
  intros name a b A B. rewrite forallb_forall in K. specialize (K _ A). rewrite forallb_forall in K. specialize (K _ B).
  cbn [fst snd] in K. rewrite String.eqb_refl in K. cbn in K. apply N.eqb_eq, K.
Qed.

Lemma hex_six : forall t, Forall (fun c => 48 <= c <= 57 \/ 65 <= c <= 70 \/ 97 <= c <= 102) t -> List.length t = 6%nat ->
  exists y, hex_numeral 16777215 t y.
Proof.
  intros t F L.
  assert (K : exists ds, Forall2 hex_digit t ds /\ Forall (fun d => d <= 15) ds).
  { clear L. induction F as [|c t C F [ds [IH1 IH2]]]; [exists []; split; constructor|].
    assert (J : exists d, hex_digit c d /\ d <= 15).
    { destruct C as [C|[C|C]]; [exists (c - 48)|exists (c - 55)|exists (c - 87)]; unfold hex_digit; lia. }
    destruct J as [d [J1 J2]]. exists (d :: ds). split; constructor; assumption. }
  destruct K as [ds [K1 K2]].
  assert (B : forall ds a, Forall (fun d => d <= 15) ds -> fold_left (fun a d => 16 * a + d) ds a < (a + 1) * 16 ^ N.of_nat (List.length ds)).
  { clear. induction ds as [|d ds IH]; intros a F; [cbn; lia|]. inversion F as [|? ? D F']; subst. cbn [fold_left List.length].
    specialize (IH (16 * a + d) F'). rewrite Nat2N.inj_succ, N.pow_succ_r'.
    assert (0 < 16 ^ N.of_nat (List.length ds)) by (apply N.neq_0_lt_0, N.pow_nonzero; lia). nia. }
  specialize (B ds 0 K2). rewrite <- (Forall2_len _ _ _ K1), L in B. change (16 ^ N.of_nat 6) with 16777216 in B.
  eexists. exists t, ds. split; [left; reflexivity|]. split; [destruct t; discriminate|]. split; [exact K1|].
  split; [reflexivity|]. lia.
Qed.

Section WithExt.
Context {E : Ext}.
Lemma g_parameter : forall t, gen fmtp_parameter t -> exists nv, t = eq_text nv /\ good_fmtp nv /\ not_rtx nv /\ Forall param_char t.
Proof.
  intros t H. apply g_inv_alt in H. destruct H as [r [M H]]. destruct M as [<-|M].
  - pieces H. apply g_inv_nocase in G.
    assert (B : Forall param_char x /\ ~ In 61 x) by (apply param_ok, (recased_chars _ _ _ G); reflexivity).
    pose proof (recased_name _ _ "PROFILE-LEVEL-ID" G eq_refl eq_refl) as U.
    apply g_inv_such in G1. destruct G1 as [G1 L]. apply g_inv_many1_chr in G1. destruct G1 as [N1 F1].
    exists (x, x1). split; [cbn [List.concat]; rewrite app_nil_r; reflexivity|]. split; [|split].
    + apply (good_named _ _ "PROFILE-LEVEL-ID"); [apply B|exact U| |].
      * intros _. apply hex_six; assumption.
      * intros max I. exfalso. unfold limits in I. cbn [In] in I. repeat (destruct I as [I|I]; [discriminate I|]). exact I.
    + apply (not_rtx_named _ _ _ U); discriminate.
    + cbn [List.concat]. rewrite app_nil_r. apply Forall_app. split; [apply B|]. change (of_string "=" ++ x1) with (61 :: x1).
      constructor; [unfold param_char, vchar; lia|]. eapply Forall_impl; [|exact F1]. cbv beta. unfold param_char, vchar. lia.
  - apply in_app_iff in M. destruct M as [M|[<-|[]]].
    + apply in_map_iff in M. destruct M as [[w max] [<- M]]. cbn [fst snd] in H. pieces H. apply g_inv_nocase in G.
      apply g_at_most in G1. destruct G1 as (W & D & U1).
      assert (K : exists name, In (name, max) limits /\ map ascii_lower (of_string w) = map ascii_lower (of_string name) /\
        forallb (fun d => forallb param_b (map (fun c => c) [d; ascii_lower d; (if (97 <=? ascii_lower d) && (ascii_lower d <=? 122) then ascii_lower d - 32 else d)])) (of_string w) = true).
      { match type of M with In _ ?l => assert (J : forallb (fun nm =>
          forallb (fun d => forallb param_b (map (fun c => c) [d; ascii_lower d; (if (97 <=? ascii_lower d) && (ascii_lower d <=? 122) then ascii_lower d - 32 else d)])) (of_string (fst nm)) &&
          existsb (fun lm => (snd lm =? snd nm) && str_eqb (map ascii_lower (of_string (fst nm))) (map ascii_lower (of_string (fst lm)))) limits) l = true)
          by (vm_compute; reflexivity) end.
        rewrite forallb_forall in J. specialize (J _ M). cbn [fst snd] in J. apply andb_prop in J. destruct J as [J1 J2].
        apply existsb_exists in J2. destruct J2 as [[name m] [I J2]]. cbn [fst snd] in J2. apply andb_prop in J2. destruct J2 as [J2 J3].
        apply N.eqb_eq in J2. subst m. apply str_eqb_eq in J3. exists name. auto. }
      destruct K as (name & I & Q & C).
      assert (B : Forall param_char x /\ ~ In 61 x) by (apply param_ok, (recased_chars _ _ _ G), C).
      pose proof (recased_name _ _ name G (limits_upper _ _ I) Q) as U.
      exists (x, x1). split; [cbn [List.concat]; rewrite app_nil_r; reflexivity|]. split; [|split].
      * apply (good_named _ _ name); [apply B|exact U| |].
        -- intros ->. exfalso. unfold limits in I. cbn [In] in I. repeat (destruct I as [I|I]; [discriminate I|]). exact I.
        -- intros max' I'. rewrite (limits_fun _ _ _ I' I). eauto.
      * apply (not_rtx_named _ _ _ U); intros ->; unfold limits in I; cbn [In] in I;
          repeat (destruct I as [I|I]; [discriminate I|]); exact I.
      * cbn [List.concat]. rewrite app_nil_r. apply Forall_app. split; [apply B|]. change (of_string "=" ++ x1) with (61 :: x1).
        constructor; [unfold param_char, vchar; lia|]. eapply Forall_impl; [|exact D]. exact digit_param.
    + pieces H. apply g_inv_such in G. destruct G as [G K]. apply g_token in G. destruct G as [W F].
      apply g_inv_many_chr in G1. rewrite Exists_exists in K.
      assert (KN : forall name, In name fmtp_names -> ~ means_upper x name) by (intros name I J; apply K; eauto).
      exists (x, x1). split; [cbn [List.concat]; rewrite app_nil_r; reflexivity|]. split; [|split].
      * split; [apply (class_no _ _ _ F); unfold token_char; lia|]. split.
        -- intro M. exfalso. apply (KN "PROFILE-LEVEL-ID"%string); [unfold fmtp_names; cbn [In]; tauto|exact M].
        -- intros name max I M. exfalso. apply (KN name); [|exact M].
           unfold limits in I. unfold fmtp_names. cbn [In] in I |- *.
           repeat (destruct I as [I|I]; [injection I as <- _; tauto|]). destruct I.
      * split; apply KN; unfold fmtp_names; cbn [In]; tauto.
      * cbn [List.concat]. rewrite app_nil_r. apply Forall_app. split.
        -- eapply Forall_impl; [|exact F]. intros c C. unfold token_char in C. unfold param_char, vchar. lia.
        -- change (of_string "=" ++ x1) with (61 :: x1). constructor; [unfold param_char, vchar; lia|exact G1].
Qed.
Lemma param_word : forall t, t <> [] -> Forall param_char t -> word t.
Proof. intros t N F. apply (class_word param_char); [|exact N|exact F]. intros c [C _]. apply vchar_solid, C. Qed.
Lemma fmtp_read : forall pt block p, gen (at_most 255) pt -> ends_solid block -> fmtp_block_value block p ->
  read_as "fmtp" (pt ++ 32 :: block).
Proof.
  intros pt block p G S B. apply g_at_most in G. destruct G as (W & D & U).
  assert (En : ends_solid (pt ++ 32 :: block)) by (apply ends_app, ends_cons, S).
  apply (read_solid _ (AFmtp {| fmtp_payload_type := dec_value pt; fmtp_parameters := p |})); [exact En|exact I|].
  eexists. exists pt, block. split; [apply core_self; [apply starts_app, word_starts, W|exact En]|].
  split; [split; [reflexivity|]|auto]. apply (class_no _ _ _ D). unfold is_digit. lia.
Qed.
Lemma fmtp_pairs : forall nv ps, Forall good_fmtp (nv :: ps) -> (exists r, rtx_value (nv :: ps) r) ->
  Forall (Forall param_char) (map eq_text (nv :: ps)) ->
  exists p, fmtp_block_value (eq_text nv ++ leads 59 (map eq_text ps)) p /\ ends_solid (eq_text nv ++ leads 59 (map eq_text ps)).
Proof.
  intros nv ps F R C. destruct (fmtp_list_exists _ F R) as [p P]. exists p.
  assert (NE : Forall (fun t => t <> []) (map eq_text (nv :: ps))).
  { apply Forall_forall. intros t T. apply in_map_iff in T. destruct T as [x [<- _]]. apply eq_text_nonempty. }
  assert (S59 : Forall (fun t => ~ In 59 t) (map eq_text (nv :: ps))).
  { eapply Forall_impl; [|exact C]. intros t T. apply (class_no _ _ _ T). unfold param_char. lia. }
  split.
  - left. split.
    + apply in_app_iff. left. unfold eq_text. apply in_app_iff. right. left. reflexivity.
    + exists (map eq_text (nv :: ps)). split.
      * cbn [map] in S59 |- *. inversion S59; subst. apply fields_leads; assumption.
      * replace (filter _ (map eq_text (nv :: ps))) with (map eq_text (nv :: ps)); [exact P|].
        clear -NE. induction NE as [|t l T NE IH]; [reflexivity|]. cbn [filter]. destruct t; [congruence|]. rewrite <- IH. reflexivity.
  - assert (W : Forall word (map eq_text (nv :: ps))).
    { clear -NE C. induction (map eq_text (nv :: ps)) as [|t l IH]; [constructor|]. inversion NE; inversion C; subst.
      constructor; [apply param_word; assumption|auto]. }
    cbn [map] in W. inversion W; subst. apply ends_leads_any; assumption.
Qed.
Lemma solid_leads : forall c x l, Forall word (x :: l) -> ends_solid (x ++ leads c l).
Proof. intros c x l F. inversion F; subst. apply ends_leads_any; assumption. Qed.
Lemma block_read : forall x1, gen (alt (list_of ";" fmtp_parameter)
             [ cats [nocase "apt"; Lit "="; at_most 255; opt (cats [Lit ";"; nocase "rtx-time"; Lit "="; at_most u32_max])];
               cats [at_most 128; Lit "/"; list_of "/" (at_most 128)];
               list_of "," event ]) x1 -> exists p, fmtp_block_value x1 p /\ ends_solid x1.
Proof.
  intros x1 G1. pose proof I as x. apply g_inv_alt in G1. destruct G1 as [r [M H]]. cbn [In] in M. destruct M as [<-|[<-|[<-|[<-|[]]]]].
  - apply (g_inv_list 59) in H; [|reflexivity]. destruct H as [y [l [F ->]]].
    assert (K : exists nv ps, y :: l = map eq_text (nv :: ps) /\ Forall good_fmtp (nv :: ps) /\ Forall not_rtx (nv :: ps) /\
      Forall (Forall param_char) (y :: l)).
    { inversion F as [|? ? H F']; subst. apply g_parameter in H. destruct H as (nv & -> & A1 & A2 & A3). exists nv.
      assert (J : exists ps, l = map eq_text ps /\ Forall good_fmtp ps /\ Forall not_rtx ps /\ Forall (Forall param_char) l).
      { clear -F'. induction F' as [|t l H F (ps & -> & IH1 & IH2 & IH3)]; [exists []; repeat split; constructor|].
        apply g_parameter in H. destruct H as (nv & -> & A1 & A2 & A3). exists (nv :: ps). repeat split; constructor; assumption. }
      destruct J as (ps & -> & B1 & B2 & B3). exists ps. repeat split; constructor; assumption. }
    destruct K as (nv & ps & Q & A1 & A2 & A3). cbn [map] in Q. injection Q as -> ->.
    apply fmtp_pairs; [exact A1| |exact A3]. exists None. apply no_rtx. exact A2.
  - pieces H. apply g_inv_nocase in G.
    assert (B : Forall param_char x0 /\ ~ In 61 x0) by (apply param_ok, (recased_chars _ _ _ G); reflexivity).
    pose proof (recased_name _ _ "APT" G eq_refl eq_refl) as U. pose proof (recased_means_upper _ _ G) as MU.
    apply (recased_same _ _ (of_string "APT")) in G; [|apply recased_refl_b; reflexivity]. apply recased_means_upper in G.
    apply g_at_most in G1. destruct G1 as (W2 & D2 & U2).
    assert (GA : good_fmtp (x0, x2)).
    { apply (good_named _ _ "APT"); [apply B|exact U|discriminate|].
      intros max I. exfalso. unfold limits in I. cbn [In] in I. repeat (destruct I as [I|I]; [discriminate I|]). exact I. }
    assert (CA : Forall param_char (eq_text (x0, x2))).
    { unfold eq_text. cbn [fst snd]. apply Forall_app. split; [apply B|]. constructor; [unfold param_char, vchar; lia|].
      eapply Forall_impl; [|exact D2]. exact digit_param. }
    assert (RA : rtx_value [(x0, x2)] (Some {| rtx_apt := dec_value x2; rtx_time := None |})).
    { apply (rtx_apt_ [] None x0 x2 (dec_value x2)); [constructor|exact G|exact U2]. }
    apply g_inv_opt in G2. destruct G2 as [->|H].
    + destruct (fmtp_pairs (x0, x2) []) as (p & P1 & P2); [fa; exact GA|eauto|cbn [map]; constructor; [exact CA|constructor]|].
      exists p. cbn [leads flat_map map] in P1, P2. unfold eq_text in P1, P2. cbn [fst snd] in P1, P2. rewrite app_nil_r in P1, P2.
      cbn [List.concat]. rewrite ?app_nil_r. split; assumption.
    + pieces H. apply g_inv_nocase in G1.
      assert (B2 : Forall param_char x3 /\ ~ In 61 x3) by (apply param_ok, (recased_chars _ _ _ G1); reflexivity).
      pose proof (recased_name _ _ "RTX-TIME" G1 eq_refl eq_refl) as U'.
      apply (recased_same _ _ (of_string "RTX-TIME")) in G1; [|apply recased_refl_b; reflexivity]. apply recased_means_upper in G1.
      apply g_at_most in G3. destruct G3 as (W4 & D4 & U4).
      destruct (fmtp_pairs (x0, x2) [(x3, x5)]) as (p & P1 & P2).
      * fa; [exact GA|]. apply (good_named _ _ "RTX-TIME"); [apply B2|exact U'|discriminate|].
        intros max I. exfalso. unfold limits in I. cbn [In] in I. repeat (destruct I as [I|I]; [discriminate I|]). exact I.
      * eexists. exact (rtx_time_ [(x0, x2)] _ x3 x5 (dec_value x5) RA G1 U4).
      * cbn [map]. constructor; [exact CA|]. constructor; [|constructor]. unfold eq_text. cbn [fst snd]. apply Forall_app. split; [apply B2|].
        constructor; [unfold param_char, vchar; lia|]. eapply Forall_impl; [|exact D4]. exact digit_param.
      * exists p. match goal with |- fmtp_block_value ?t _ /\ _ => replace t with (eq_text (x0, x2) ++ leads 59 (map eq_text [(x3, x5)])) end;
          [split; assumption|]. unfold eq_text. cbn [List.concat leads flat_map map fst snd app].
        repeat (rewrite <- app_assoc; cbn [app]). rewrite ?app_nil_r. reflexivity.
  - pieces H. apply (g_inv_list 47) in G1; [|reflexivity]. destruct G1 as [y [l [F ->]]].
    match goal with |- exists p, fmtp_block_value ?t _ /\ _ => replace t with (x0 ++ leads 47 (y :: l)) by
      (cbn [List.concat leads flat_map app]; rewrite ?app_nil_r; reflexivity) end.
    assert (FA : Forall (fun t => word t /\ Forall is_digit t /\ numeral 128 t (dec_value t)) (x0 :: y :: l)).
    { apply (Forall_impl _ (g_at_most 128)). constructor; assumption. }
    assert (WA : Forall word (x0 :: y :: l)) by (eapply Forall_impl; [|exact FA]; cbv beta; tauto).
    assert (SA : Forall (fun t => ~ In 47 t) (x0 :: y :: l)).
    { eapply Forall_impl; [|exact FA]. intros t (_ & D & _). apply (class_no _ _ _ D). unfold is_digit. lia. }
    exists (set_encodings (map dec_value (x0 :: y :: l)) fmtp_defaults). split; [|apply solid_leads; exact WA].
    right. left. split; [|split].
    + assert (C : Forall (fun c => is_digit c \/ c = 47) (x0 ++ leads 47 (y :: l))).
      { assert (J : Forall (Forall (fun c => is_digit c \/ c = 47)) (x0 :: y :: l)).
        { eapply Forall_impl; [|exact FA]. intros t (_ & D & _). eapply Forall_impl; [|exact D]. cbv beta. tauto. }
        inversion J; subst. apply Forall_app. split; [assumption|]. apply leads_class; [tauto|assumption]. }
      apply (class_no _ _ _ C). unfold is_digit. lia.
    + apply in_app_iff. right. left. reflexivity.
    + exists (x0 :: y :: l). split; [inversion SA; subst; apply fields_leads; assumption|]. split; [|reflexivity].
      change (encodings _) with (map dec_value (x0 :: y :: l)). clear -FA. induction FA as [|t ts (_ & _ & U) F IH]; [constructor|].
      cbn [map]. constructor; assumption.
  - apply (g_inv_list 44) in H; [|reflexivity]. destruct H as [y [l [F ->]]].
    assert (FA : Forall (fun t => t <> [] /\ Forall (fun c => is_digit c \/ c = 45 \/ c = 44) t) (y :: l)).
    { eapply Forall_impl; [|exact F]. intros t T. apply g_inv_or in T. destruct T as [T|T].
      - apply g_at_most in T. destruct T as ([N _] & D & _). split; [exact N|]. eapply Forall_impl; [|exact D]. cbv beta. tauto.
      - pieces T. apply g_at_most in G, G1. destruct G as ([N _] & D & _), G1 as (_ & D1 & _). cbn [List.concat]. rewrite app_nil_r.
        split; [destruct x0; [congruence|discriminate]|]. apply Forall_app. split; [eapply Forall_impl; [|exact D]; cbv beta; tauto|].
        constructor; [tauto|]. eapply Forall_impl; [|exact D1]; cbv beta; tauto. }
    assert (C : Forall (fun c => is_digit c \/ c = 45 \/ c = 44) (y ++ leads 44 l)).
    { assert (J : Forall (Forall (fun c => is_digit c \/ c = 45 \/ c = 44)) (y :: l)) by (eapply Forall_impl; [|exact FA]; cbv beta; tauto).
      inversion J; subst. apply Forall_app. split; [assumption|]. apply leads_class; [tauto|assumption]. }
    assert (W : word (y ++ leads 44 l)).
    { apply (class_word _ _) with (3 := C).
      - intros c J. apply vchar_solid. unfold is_digit in J. unfold vchar. lia.
      - inversion FA as [|? ? [N _] _]; subst. destruct y; [congruence|discriminate]. }
    assert (N61 : ~ In 61 (y ++ leads 44 l)) by (apply (class_no _ _ _ C); unfold is_digit; lia).
    assert (N47 : ~ In 47 (y ++ leads 44 l)) by (apply (class_no _ _ _ C); unfold is_digit; lia).
    destruct (tones_dec (y ++ leads 44 l)) as [T|T].
    + exists (set_dtmf_tones (y ++ leads 44 l) fmtp_defaults). split; [|apply word_ends, W]. right. right.
      split; [exact N61|]. split; [exact N47|]. split; [reflexivity|]. left. split; [exact T|reflexivity].
    + exists (set_dtmf_tones (lit "0-15") fmtp_defaults). split; [|apply word_ends, W]. right. right.
      split; [exact N61|]. split; [exact N47|]. split; [reflexivity|]. right. split; [exact T|reflexivity].
Qed.
Lemma r_fmtp : names_of ("fmtp"%string, rfc_fmtp).
Proof.
  start. pieces H. text (x ++ 32 :: x1). destruct (block_read _ G1) as (p & K1 & K2). eapply fmtp_read; eassumption.
Qed.
End WithExt.

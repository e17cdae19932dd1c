(** * fmtp and rid against the grammars of SpecVal.v (proofs only) *)
From Coq Require Import List NArith ZArith Bool Ascii String Lia.
From Coq Require Import ZifyBool ZifyNat ZifyN.
From Verif Require Import Str Num Net Types Ext Show Address AttrParse Media Session.
From Verif Require Import StrLemmas NumLemmas NetLemmas.
From Verif Require Import SpecApi SpecDoc SpecVal PVal PVal2 PVal3 PVal4.
Import ListNotations.
Open Scope N_scope.
Open Scope list_scope.

Section WithExt.
Context {E : Ext}.

(** ** fmtp *)
Lemma up_to_iff : forall m e n x, up_to m e n = Ok x <-> x = n /\ n <= m.
Proof.
  intros m e n x. unfold up_to. destruct (N.leb_spec n m); split; intro H0; try discriminate.
  - inv H0. auto.
  - destruct H0 as [-> _]. reflexivity.
  - lia.
Qed.

Lemma parse_bool_iff : forall v name b, fmtp_parse_bool v name = Ok b <-> flag_numeral v b.
Proof.
  intros v name b. unfold fmtp_parse_bool, flag_numeral. split.
  - intro H. okb H n Hn. apply p_u8_iff in Hn.
    destruct (N.eqb_spec n 0) as [->|]; [inv H; eapply numeral_weaken; eauto; lia|].
    destruct (N.eqb_spec n 1) as [->|]; [inv H; eapply numeral_weaken; eauto; lia | discriminate].
  - intro H. apply (numeral_weaken u8_max) in H; [|destruct b; discriminate].
    apply p_u8_iff in H. rewrite H. cbn [bind]. destruct b; reflexivity.
Qed.

Definition fmtp_state (ps : list (str * str)) (p : fmtp_params) : Prop :=
  let num name default := field_of (fun n => means_upper n name) ps (numeral u32_max) default in
  let flag name := field_of (fun n => means_upper n name) ps flag_numeral false in
  let opt name max := option_field (fun n => means_upper n name) ps (numeral max) in
  field_of (fun n => means_upper n "PROFILE-LEVEL-ID") ps (hex_numeral 16777215)
    (66 * 65536 + 10) (profile_level_id p) /\
  field_of (fun n => means_upper n "PACKETIZATION-MODE") ps (numeral 2) 0 (packetization_mode p) /\
  flag "LEVEL-ASYMMETRY-ALLOWED"%string (level_asymmetry_allowed p) /\
  num "MAX-MBPS"%string 0 (max_mbps p) /\ num "MAX-FS"%string 0 (max_fs p) /\
  num "MAX-CPB"%string 0 (max_cpb p) /\ num "MAX-DPB"%string 0 (max_dpb p) /\
  num "MAX-BR"%string 0 (max_br p) /\ num "MAX-FR"%string 0 (max_fr p) /\
  opt "PROFILE"%string 2 (profile p) /\ opt "LEVEL-IDX"%string 31 (level_idx p) /\
  opt "TIER"%string 1 (tier p) /\
  num "MAXPLAYBACKRATE"%string 48000 (maxplaybackrate p) /\
  num "MAXAVERAGEBITRATE"%string 0 (maxaveragebitrate p) /\
  num "PTIME"%string 0 (ptime p) /\ num "MAXPTIME"%string 0 (maxptime p) /\
  num "MINPTIME"%string 0 (minptime p) /\
  flag "USEDTX"%string (usedtx p) /\ flag "STEREO"%string (stereo p) /\
  flag "USEINBANDFEC"%string (useinbandfec p) /\ flag "CBR"%string (cbr p) /\
  rtx_value ps (rtx p) /\ encodings p = [] /\ dtmf_tones p = [] /\
  exists us, others (fun n => Exists (means_upper n) fmtp_names) ps us /\
             unknown_tokens p = map (fun nv => fst nv ++ 61 :: snd nv) us.

Lemma fmtp_state_spec : forall toks p, fmtp_list_value toks p <->
  exists ps, Forall2 (fun t nv => cut 61 t (fst nv) (snd nv)) toks ps /\ fmtp_state ps p.
Proof. intros. reflexivity. Qed.

Lemma fmtp_state_nil : fmtp_state [] default_fmtp_params.
Proof.
  unfold fmtp_state, option_field. rewrite !field_nil.
  repeat split; try reflexivity; try constructor.
  exists []. split; [constructor | reflexivity].
Qed.
Lemma fmtp_state_nil_inv : forall p, fmtp_state [] p -> p = default_fmtp_params.
Proof.
  intros p H. unfold fmtp_state, option_field in H. rewrite !field_nil in H.
  destruct H as (? & ? & ? & ? & ? & ? & ? & ? & ? & ? & ? & ? & ? & ? & ? & ? & ? & ? & ? & ? & ?
                 & R & ? & ? & us & O & U).
  apply others_nil_iff in O. subst us.
  inversion R as [X|? ? ? ? ? ? ? ? X|? ? ? ? ? ? ? ? X|? ? ? ? ? ? ? X];
    try (match goal with X : ?l ++ [_] = [] |- _ => destruct l; discriminate X end).
  destruct p; cbn in *; subst. reflexivity.
Qed.

Lemma rtx_snoc_other : forall ps n v r, ~ means_upper n "APT" -> ~ means_upper n "RTX-TIME" ->
  (rtx_value (ps ++ [(n, v)]) r <-> rtx_value ps r).
Proof.
  intros ps n v r N1 N2; split.
  - intro H. inversion H as [X|ps' r' n' v' x R M Q X|ps' r' n' v' x R M Q X|ps' r' n' v' R M M' X].
    + destruct ps; discriminate.
    + apply app_inj_tail in X. destruct X as [-> X]. inv X. contradiction.
    + apply app_inj_tail in X. destruct X as [-> X]. inv X. contradiction.
    + apply app_inj_tail in X. destruct X as [-> X]. inv X. exact R.
  - intro H. apply rtx_other; assumption.
Qed.
Lemma rtx_snoc_apt : forall ps n v r, means_upper n "APT" ->
  (rtx_value (ps ++ [(n, v)]) r <->
   exists r' x, rtx_value ps r' /\ numeral u8_max v x /\
                r = Some {| rtx_apt := x; rtx_time := None |}).
Proof.
  intros ps n v r N1; split.
  - intro H. inversion H as [X|ps' r' n' v' x R M Q X|ps' r' n' v' x R M Q X|ps' r' n' v' R M M' X].
    + destruct ps; discriminate.
    + apply app_inj_tail in X. destruct X as [-> X]. inv X. eauto.
    + apply app_inj_tail in X. destruct X as [-> X]. inv X. exfalso.
      apply means_upper_iff in N1, M; try reflexivity. rewrite N1 in M. discriminate.
    + apply app_inj_tail in X. destruct X as [-> X]. inv X. contradiction.
  - intros (r' & x & R & Q & ->). eapply rtx_apt_; eauto.
Qed.
Lemma rtx_snoc_time : forall ps n v r, means_upper n "RTX-TIME" ->
  (rtx_value (ps ++ [(n, v)]) r <->
   exists r' x, rtx_value ps (Some r') /\ numeral u32_max v x /\
                r = Some {| rtx_apt := rtx_apt r'; rtx_time := Some x |}).
Proof.
  intros ps n v r N1; split.
  - intro H. inversion H as [X|ps' r' n' v' x R M Q X|ps' r' n' v' x R M Q X|ps' r' n' v' R M M' X].
    + destruct ps; discriminate.
    + apply app_inj_tail in X. destruct X as [-> X]. inv X. exfalso.
      apply means_upper_iff in N1, M; try reflexivity. rewrite N1 in M. discriminate.
    + apply app_inj_tail in X. destruct X as [-> X]. inv X. eauto.
    + apply app_inj_tail in X. destruct X as [-> X]. inv X. contradiction.
  - intros (r' & x & R & Q & ->). eapply rtx_time_; eauto.
Qed.

Lemma of_string_inj : forall a b, of_string a = of_string b -> a = b.
Proof.
  intros a b H. unfold of_string in H.
  assert (L : list_ascii_of_string a = list_ascii_of_string b).
  { revert H. generalize (list_ascii_of_string a) (list_ascii_of_string b).
    intro l. induction l as [|x l IH]; intros [|y l'] H; try discriminate; [reflexivity|].
    cbn [map] in H. injection H as H1 H2. apply (f_equal ascii_of_N) in H1.
    rewrite !ascii_N_embedding in H1. rewrite H1, (IH _ H2). reflexivity. }
  rewrite <- (string_of_list_ascii_of_string a), <- (string_of_list_ascii_of_string b), L.
  reflexivity.
Qed.

Lemma not_upper : forall n k name, to_upper n = of_string k -> upper_word (of_string name) = true ->
  String.eqb k name = false -> ~ means_upper n name.
Proof.
  intros n k name H W Q M. apply means_upper_iff in M; [|exact W]. rewrite H in M.
  apply of_string_inj in M. subst. rewrite String.eqb_refl in Q. discriminate.
Qed.
Lemma not_upper' : forall n name, to_upper n <> of_string name ->
  upper_word (of_string name) = true -> ~ means_upper n name.
Proof. intros n name H W M. apply means_upper_iff in M; [contradiction | exact W]. Qed.

Lemma known_upper : forall n k names, to_upper n = of_string k -> upper_word (of_string k) = true ->
  In k names -> Exists (means_upper n) names.
Proof.
  intros n k names H W I. apply Exists_exists. exists k. split; [exact I | apply upper_is; assumption].
Qed.
Lemma fmtp_known : forall n k, to_upper n = of_string k ->
  existsb (String.eqb k) fmtp_names = true -> Exists (means_upper n) fmtp_names.
Proof.
  intros n k H I. apply existsb_exists in I. destruct I as (k' & I & Q).
  apply String.eqb_eq in Q. subst k'. eapply known_upper; eauto.
  assert (A : forallb (fun k => upper_word (of_string k)) fmtp_names = true) by (vm_compute; reflexivity).
  rewrite forallb_forall in A. apply A; exact I.
Qed.

(** [Hn : to_upper n = of_string k]: the fields other than [k] do not change. *)
Ltac no Hn k := apply (not_upper _ k _ Hn); reflexivity.
Ltac yes Hn := apply upper_is; [exact Hn | reflexivity].

Ltac conv := repeat match goal with
  | X : up_to ?m _ ?n = Ok ?y |- _ => apply up_to_iff in X; destruct X as [-> X]
  | X : p_u32 _ = Ok _ |- _ => apply p_u32_iff in X
  | X : p_u8 _ = Ok _ |- _ => apply p_u8_iff in X
  | X : res_map_err EInteger (parse_uint 16 u32_max _) = Ok _ |- _ =>
      apply map_err_ok in X; apply hex_numeral_iff in X
  | X : fmtp_parse_bool _ _ = Ok _ |- _ => apply parse_bool_iff in X
  end.
Ltac reads_tac :=
  solve [ assumption | eapply numeral_weaken; eassumption | eapply hex_numeral_weaken; eassumption ].
Ltac same Hn k := simple refine (proj2 (field_snoc_not _ _ _ _ _ _ _ _) _); [no Hn k | assumption].
Ltac here Hn := simple refine (proj2 (field_snoc_is _ _ _ _ _ _ _ _) _); [yes Hn|];
  split; [eexists; eassumption | first [ reads_tac | eexists; split; [reflexivity | reads_tac] ]].
Ltac fwd_field Hn k :=
  match goal with
  | |- field_of (fun n => means_upper n k) _ _ _ _ => here Hn
  | |- field_of _ _ _ _ _ => same Hn k
  end.

Ltac start_fwd F :=
  unfold fmtp_state, option_field in F |- *;
  destruct F as (F1 & F2 & F3 & F4 & F5 & F6 & F7 & F8 & F9 & F10 & F11 & F12 & F13 & F14 & F15 & F16
                 & F17 & F18 & F19 & F20 & F21 & R & En & Dt & us & O & U).

Ltac fwd k Hn H F :=
  oka H; inv H; conv; start_fwd F;
  do 21 (split; [fwd_field Hn k|]);
  (split; [simple refine (proj2 (rtx_snoc_other _ _ _ _ _ _) _); [no Hn k | no Hn k | assumption]|]);
  (split; [assumption|]); (split; [assumption|]);
  (eexists; split; [apply others_snoc_known; [apply (fmtp_known _ k Hn); reflexivity | eassumption]
                   | assumption]).

Ltac kname n k k' Hn :=
  destruct (str_eqb_spec (to_upper n) k') as [Hn|Hn];
  [change (to_upper n = of_string k) in Hn | change (to_upper n <> of_string k) in Hn].

Lemma fmtp_step_fwd : forall ps p' p tok n v, cut 61 tok n v -> fmtp_state ps p' ->
  fmtp_parameter p' tok = Ok p -> fmtp_state (ps ++ [(n, v)]) p.
Proof.
  intros ps p' p tok n v C F H. unfold fmtp_parameter in H.
  pose proof C as C0. apply cut_splitn2 in C. change 61 with c_eq in C. rewrite C in H.
  kname n "PROFILE-LEVEL-ID"%string (lit "PROFILE-LEVEL-ID") Hn; [fwd "PROFILE-LEVEL-ID"%string Hn H F|].
  kname n "PACKETIZATION-MODE"%string (lit "PACKETIZATION-MODE") Hn1; [fwd "PACKETIZATION-MODE"%string Hn1 H F|].
  kname n "LEVEL-ASYMMETRY-ALLOWED"%string (lit "LEVEL-ASYMMETRY-ALLOWED") Hn2; [fwd "LEVEL-ASYMMETRY-ALLOWED"%string Hn2 H F|].
  kname n "MAX-MBPS"%string (lit "MAX-MBPS") Hn3; [fwd "MAX-MBPS"%string Hn3 H F|].
  kname n "MAX-FS"%string (lit "MAX-FS") Hn4; [fwd "MAX-FS"%string Hn4 H F|].
  kname n "MAX-CPB"%string (lit "MAX-CPB") Hn5; [fwd "MAX-CPB"%string Hn5 H F|].
  kname n "MAX-DPB"%string (lit "MAX-DPB") Hn6; [fwd "MAX-DPB"%string Hn6 H F|].
  kname n "MAX-BR"%string (lit "MAX-BR") Hn7; [fwd "MAX-BR"%string Hn7 H F|].
  kname n "MAX-FR"%string (lit "MAX-FR") Hn8; [fwd "MAX-FR"%string Hn8 H F|].
  kname n "PROFILE"%string (lit "PROFILE") Hn9; [fwd "PROFILE"%string Hn9 H F|].
  kname n "LEVEL-IDX"%string (lit "LEVEL-IDX") Hn10; [fwd "LEVEL-IDX"%string Hn10 H F|].
  kname n "TIER"%string (lit "TIER") Hn11; [fwd "TIER"%string Hn11 H F|].
  kname n "MAXPLAYBACKRATE"%string (lit "MAXPLAYBACKRATE") Hn12; [fwd "MAXPLAYBACKRATE"%string Hn12 H F|].
  kname n "MAXAVERAGEBITRATE"%string (lit "MAXAVERAGEBITRATE") Hn13; [fwd "MAXAVERAGEBITRATE"%string Hn13 H F|].
  kname n "PTIME"%string (lit "PTIME") Hn14; [fwd "PTIME"%string Hn14 H F|].
  kname n "MAXPTIME"%string (lit "MAXPTIME") Hn15; [fwd "MAXPTIME"%string Hn15 H F|].
  kname n "MINPTIME"%string (lit "MINPTIME") Hn16; [fwd "MINPTIME"%string Hn16 H F|].
  kname n "USEDTX"%string (lit "USEDTX") Hn17; [fwd "USEDTX"%string Hn17 H F|].
  kname n "STEREO"%string (lit "STEREO") Hn18; [fwd "STEREO"%string Hn18 H F|].
  kname n "USEINBANDFEC"%string (lit "USEINBANDFEC") Hn19; [fwd "USEINBANDFEC"%string Hn19 H F|].
  kname n "CBR"%string (lit "CBR") Hn20; [fwd "CBR"%string Hn20 H F|].
  kname n "APT"%string (lit "APT") Hn21.
  { okb H x Hx. inv H. conv. start_fwd F.
    do 21 (split; [same Hn21 "APT"%string|]).
    split; [simple refine (proj2 (rtx_snoc_apt _ _ _ _ _) _); [yes Hn21|]; exists (rtx p'), x; auto|].
    split; [assumption|]. split; [assumption|].
    exists us. split; [apply others_snoc_known; [apply (fmtp_known _ "APT" Hn21); reflexivity | assumption] | assumption]. }
  kname n "RTX-TIME"%string (lit "RTX-TIME") Hn22.
  { destruct (rtx p') as [r|] eqn:Er; [|discriminate]. okb H x Hx. inv H. conv. start_fwd F.
    do 21 (split; [same Hn22 "RTX-TIME"%string|]).
    split; [simple refine (proj2 (rtx_snoc_time _ _ _ _ _) _); [yes Hn22|]; exists r, x; rewrite <- Er; auto|].
    split; [assumption|]. split; [assumption|].
    exists us. split; [apply others_snoc_known; [apply (fmtp_known _ "RTX-TIME" Hn22); reflexivity | assumption] | assumption]. }
  inv H. start_fwd F.
  do 21 (split; [simple refine (proj2 (field_snoc_not _ _ _ _ _ _ _ _) _);
                 [apply not_upper'; [assumption | reflexivity] | assumption]|]).
  split; [simple refine (proj2 (rtx_snoc_other _ _ _ _ _ _) _);
          [apply not_upper'; [assumption | reflexivity] | apply not_upper'; [assumption | reflexivity]
          | assumption]|].
  split; [assumption|]. split; [assumption|].
  exists (us ++ [(n, v)]). split.
  - apply others_snoc_unknown; [|eauto]. intro X.
    apply Exists_exists in X. destruct X as (k & I & M).
    assert (W : forallb (fun k => upper_word (of_string k)) fmtp_names = true) by (vm_compute; reflexivity).
    rewrite forallb_forall in W. apply (means_upper_iff n k (W _ I)) in M. clear -I M Hn Hn1 Hn2 Hn3 Hn4 Hn5 Hn6 Hn7 Hn8 Hn9 Hn10 Hn11 Hn12 Hn13 Hn14 Hn15 Hn16 Hn17 Hn18 Hn19 Hn20 Hn21 Hn22.
    unfold fmtp_names in I. cbn [In] in I.
    repeat (destruct I as [I|I]; [subst k; contradiction|]). contradiction.
  - cbn. rewrite map_app, U. cbn. destruct C0 as [-> _]. reflexivity.
Qed.

(** The same steps backwards: the state before a parameter exists. *)
Ltac back_same Hn k := match goal with C : cut 61 _ ?n ?v |- _ =>
  simple refine (proj1 (field_snoc_not _ _ n v _ _ _ _) _); [no Hn k | eassumption] end.
Ltac back_field Hn k :=
  match goal with
  | |- field_of (fun n => means_upper n k) _ _ _ _ => eassumption
  | |- field_of _ _ _ _ _ => back_same Hn k
  end.
Ltac unconv :=
  repeat match goal with
  | X : numeral ?m ?v ?x |- context [p_u32 ?v] =>
      let Q := fresh in assert (Q : p_u32 v = Ok x)
        by (apply p_u32_iff; first [exact X | apply (numeral_weaken u32_max _ _ _ X), (N.le_trans _ _ _ (numeral_le _ _ _ X)); discriminate]);
      rewrite Q; clear Q; cbn [bind]
  | X : numeral ?m ?v ?x |- context [p_u8 ?v] =>
      let Q := fresh in assert (Q : p_u8 v = Ok x)
        by (apply p_u8_iff; first [exact X | apply (numeral_weaken u8_max _ _ _ X), (N.le_trans _ _ _ (numeral_le _ _ _ X)); discriminate]);
      rewrite Q; clear Q; cbn [bind]
  | X : hex_numeral ?m ?v ?x |- context [parse_uint 16 u32_max ?v] =>
      let Q := fresh in assert (Q : parse_uint 16 u32_max v = Ok x)
        by (apply hex_numeral_iff; apply (hex_numeral_weaken u32_max _ _ _ X), (N.le_trans _ _ _ (hex_numeral_le _ _ _ X)); discriminate);
      rewrite Q; clear Q; cbn [bind res_map_err]
  | X : flag_numeral ?v ?b |- context [fmtp_parse_bool ?v ?nm] =>
      let Q := fresh in assert (Q : fmtp_parse_bool v nm = Ok b) by (apply parse_bool_iff; exact X);
      rewrite Q; clear Q; cbn [bind]
  | X : numeral ?m ?v ?x |- context [up_to ?m ?e ?x] =>
      let Q := fresh in assert (Q : up_to m e x = Ok x)
        by (apply up_to_iff; split; [reflexivity | exact (numeral_le _ _ _ X)]);
      rewrite Q; clear Q; cbn [bind]
  | X : hex_numeral ?m ?v ?x |- context [up_to ?m ?e ?x] =>
      let Q := fresh in assert (Q : up_to m e x = Ok x)
        by (apply up_to_iff; split; [reflexivity | exact (hex_numeral_le _ _ _ X)]);
      rewrite Q; clear Q; cbn [bind]
  end.
Ltac bwd k Hn F setter fld p :=
  start_fwd F;
  match goal with
  | X : field_of (fun n => means_upper n k) (_ ++ [_]) _ _ _ |- _ =>
      apply field_snoc_is in X; [|yes Hn]; destruct X as [[y X] Q]
  end;
  match goal with X : field_of (fun n => means_upper n k) _ _ _ ?y |- _ => exists (setter y p) end;
  split;
  [ do 21 (split; [back_field Hn k|]);
    (split; [match goal with C : cut 61 _ ?n ?v |- _ =>
       simple refine (proj1 (rtx_snoc_other _ n v _ _ _) _); [no Hn k | no Hn k | eassumption] end|]);
    (split; [assumption|]); (split; [assumption|]);
    eexists; split; [match goal with O : others _ (_ ++ [_]) _ |- _ =>
                       apply others_snoc_known in O; [exact O | apply (fmtp_known _ k Hn); reflexivity]
                     end
                    | assumption]
  | match goal with
    | Q : some_reads _ _ (fld p) |- _ =>
        let x := fresh "x" in let Ex := fresh "Ex" in
        destruct Q as (x & Ex & Q); unconv; destruct p; cbn in Ex; subst; reflexivity
    | _ => unconv; destruct p; reflexivity
    end ].

Lemma fmtp_step_bwd : forall ps p tok n v, cut 61 tok n v -> fmtp_state (ps ++ [(n, v)]) p ->
  exists p', fmtp_state ps p' /\ fmtp_parameter p' tok = Ok p.
Proof.
  intros ps p tok n v C F. unfold fmtp_parameter.
  pose proof C as C0. apply cut_splitn2 in C. change 61 with c_eq in C. rewrite C.
  kname n "PROFILE-LEVEL-ID"%string (lit "PROFILE-LEVEL-ID") Hn0; [bwd "PROFILE-LEVEL-ID"%string Hn0 F @set_profile_level_id @profile_level_id p|].
  kname n "PACKETIZATION-MODE"%string (lit "PACKETIZATION-MODE") Hn1; [bwd "PACKETIZATION-MODE"%string Hn1 F @set_packetization_mode @packetization_mode p|].
  kname n "LEVEL-ASYMMETRY-ALLOWED"%string (lit "LEVEL-ASYMMETRY-ALLOWED") Hn2; [bwd "LEVEL-ASYMMETRY-ALLOWED"%string Hn2 F @set_level_asymmetry_allowed @level_asymmetry_allowed p|].
  kname n "MAX-MBPS"%string (lit "MAX-MBPS") Hn3; [bwd "MAX-MBPS"%string Hn3 F @set_max_mbps @max_mbps p|].
  kname n "MAX-FS"%string (lit "MAX-FS") Hn4; [bwd "MAX-FS"%string Hn4 F @set_max_fs @max_fs p|].
  kname n "MAX-CPB"%string (lit "MAX-CPB") Hn5; [bwd "MAX-CPB"%string Hn5 F @set_max_cpb @max_cpb p|].
  kname n "MAX-DPB"%string (lit "MAX-DPB") Hn6; [bwd "MAX-DPB"%string Hn6 F @set_max_dpb @max_dpb p|].
  kname n "MAX-BR"%string (lit "MAX-BR") Hn7; [bwd "MAX-BR"%string Hn7 F @set_max_br @max_br p|].
  kname n "MAX-FR"%string (lit "MAX-FR") Hn8; [bwd "MAX-FR"%string Hn8 F @set_max_fr @max_fr p|].
  kname n "PROFILE"%string (lit "PROFILE") Hn9; [bwd "PROFILE"%string Hn9 F @set_profile @profile p|].
  kname n "LEVEL-IDX"%string (lit "LEVEL-IDX") Hn10; [bwd "LEVEL-IDX"%string Hn10 F @set_level_idx @level_idx p|].
  kname n "TIER"%string (lit "TIER") Hn11; [bwd "TIER"%string Hn11 F @set_tier @tier p|].
  kname n "MAXPLAYBACKRATE"%string (lit "MAXPLAYBACKRATE") Hn12; [bwd "MAXPLAYBACKRATE"%string Hn12 F @set_maxplaybackrate @maxplaybackrate p|].
  kname n "MAXAVERAGEBITRATE"%string (lit "MAXAVERAGEBITRATE") Hn13; [bwd "MAXAVERAGEBITRATE"%string Hn13 F @set_maxaveragebitrate @maxaveragebitrate p|].
  kname n "PTIME"%string (lit "PTIME") Hn14; [bwd "PTIME"%string Hn14 F @set_ptime @ptime p|].
  kname n "MAXPTIME"%string (lit "MAXPTIME") Hn15; [bwd "MAXPTIME"%string Hn15 F @set_maxptime @maxptime p|].
  kname n "MINPTIME"%string (lit "MINPTIME") Hn16; [bwd "MINPTIME"%string Hn16 F @set_minptime @minptime p|].
  kname n "USEDTX"%string (lit "USEDTX") Hn17; [bwd "USEDTX"%string Hn17 F @set_usedtx @usedtx p|].
  kname n "STEREO"%string (lit "STEREO") Hn18; [bwd "STEREO"%string Hn18 F @set_stereo @stereo p|].
  kname n "USEINBANDFEC"%string (lit "USEINBANDFEC") Hn19; [bwd "USEINBANDFEC"%string Hn19 F @set_useinbandfec @useinbandfec p|].
  kname n "CBR"%string (lit "CBR") Hn20; [bwd "CBR"%string Hn20 F @set_cbr @cbr p|].
  kname n "APT"%string (lit "APT") Hn21.
  { start_fwd F. apply rtx_snoc_apt in R; [|yes Hn21]. destruct R as (r' & x & R & Q & Er).
    exists (set_rtx r' p). split.
    - do 21 (split; [back_same Hn21 "APT"%string|]).
      split; [exact R|]. split; [assumption|]. split; [assumption|].
      exists us. split; [|assumption].
      apply others_snoc_known in O; [exact O | apply (fmtp_known _ "APT" Hn21); reflexivity].
    - unconv. destruct p; cbn in Er; subst; reflexivity. }
  kname n "RTX-TIME"%string (lit "RTX-TIME") Hn22.
  { start_fwd F. apply rtx_snoc_time in R; [|yes Hn22]. destruct R as (r' & x & R & Q & Er).
    exists (set_rtx (Some r') p). split.
    - do 21 (split; [back_same Hn22 "RTX-TIME"%string|]).
      split; [exact R|]. split; [assumption|]. split; [assumption|].
      exists us. split; [|assumption].
      apply others_snoc_known in O; [exact O | apply (fmtp_known _ "RTX-TIME" Hn22); reflexivity].
    - cbn [rtx set_rtx]. unconv. destruct p; cbn in Er; subst; reflexivity. }
  start_fwd F.
  apply others_snoc_unknown in O.
  2: { intro X.
    apply Exists_exists in X. destruct X as (k & I & M).
    assert (W : forallb (fun k => upper_word (of_string k)) fmtp_names = true) by (vm_compute; reflexivity).
    rewrite forallb_forall in W. apply (means_upper_iff n k (W _ I)) in M.
    clear -I M Hn0 Hn1 Hn2 Hn3 Hn4 Hn5 Hn6 Hn7 Hn8 Hn9 Hn10 Hn11 Hn12 Hn13 Hn14 Hn15 Hn16 Hn17 Hn18 Hn19 Hn20 Hn21 Hn22.
    unfold fmtp_names in I. cbn [In] in I.
    repeat (destruct I as [I|I]; [subst k; contradiction|]). contradiction. }
  destruct O as (us' & O & ->). rewrite map_app in U. cbn [map fst snd] in U.
  exists (set_unknown_tokens (map (fun nv => fst nv ++ 61 :: snd nv) us') p). split.
  - do 21 (split; [simple refine (proj1 (field_snoc_not _ _ n v _ _ _ _) _);
                   [apply not_upper'; [assumption | reflexivity] | eassumption]|]).
    split; [simple refine (proj1 (rtx_snoc_other _ n v _ _ _) _);
            [apply not_upper'; [assumption | reflexivity]
            | apply not_upper'; [assumption | reflexivity] | eassumption]|].
    split; [assumption|]. split; [assumption|]. exists us'. split; [exact O | reflexivity].
  - destruct C0 as [-> _]. destruct p; cbn in U; subst; reflexivity.
Qed.

End WithExt.

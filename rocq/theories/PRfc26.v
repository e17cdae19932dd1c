(** * Masked lines and the rules of the RFCs (C82) *)
From Coq Require Import List Arith NArith ZArith Lia Bool Ascii String.
From Coq Require Import ZifyBool ZifyNat ZifyN.
From Verif Require Import Str Num Net Types Ext Show Address AttrParse Media Session Anon SpecApi SpecDoc SpecVal SpecItems
  SpecPrint SpecIp SpecGrammar SpecAnon SpecMask.
From Verif Require Import StrLemmas NumLemmas NetLemmas PVal PVal2 PVal6 PVal8 PVal9 PVal10 PVal11 PPrint PPrint2 PPrint3 PPrint4
  PPrint9 PPrint10 PPrint11 PIp PIp2 PDoc3 PExt0 PSettle PAnon PAnon2 PAnon3 PAnon4 PMask.
From Verif Require Import SpecRfc PRfc PRfc2 PRfc3 PRfc4 PRfc5 PRfc7 PRfc9 PRfc10 PRfc16 PRfc17 PRfc18 PRfc19 PRfc20 PRfc21 PRfc22.
Import ListNotations.
Open Scope N_scope.
Open Scope list_scope.

Lemma masked_codes : forall h v, Forall (fun g => exists k n, is_code k n g) (SpecAnon.fields (fst (mask_val v (after anon_new h)))).
Proof.
  intros h v. pose proof (masking_complete (after anon_new h) v []) as M. cbn [after fold_left] in M.
  change (fold_left _ [] ?a) with a in M. rewrite <- after_snoc in M.
  assert (I : incl (SpecAnon.fields v) (flat_map SpecAnon.fields (h ++ [v]))).
  { intros f Hf. apply in_flat_map. exists v. split; [apply in_or_app; right; left; reflexivity|exact Hf]. }
  revert I. induction M as [|f g l l' H M IH]; intro I; constructor.
  - destruct (nth_distinct_ex f (flat_map SpecAnon.fields (h ++ [v]) ++ [f])) as (n & Nn); [apply in_or_app; right; left; reflexivity|].
    destruct (mask_exact (h ++ [v]) f n Nn) as (g' & G1 & G2). rewrite H in G1. apply val_of_inj in G1. subst g'. eauto.
  - apply IH. intros x Hx. apply I. right. exact Hx.
Qed.
Lemma numbered_chars : forall (P : N -> Prop) p n s, Forall P p -> (forall c, 48 <= c <= 57 -> P c) -> numbered p n s -> Forall P s.
Proof.
  intros P p n s F D (ds & -> & G & _). apply Forall_app. split; [exact F|]. eapply Forall_impl; [|exact G]. exact D.
Qed.

Section WithExt.
Context {E : Ext}.
(** ** Lines that no longer follow their rule *)
Lemma line_of_value : forall name rule v, gen (cats [Lit "a="; Lit name; Lit ":"; rule]) (lit "a=" ++ of_string name ++ 58 :: v) -> gen rule v.
Proof.
  intros name rule v G. remember (lit "a=" ++ of_string name ++ 58 :: v) as t eqn:C. pieces G.
  assert (Q : x2 = v); [|rewrite <- Q; exact G2].
  cbn [List.concat] in C. rewrite app_nil_r in C. change (lit "a=" ++ of_string name ++ 58 :: x2 = lit "a=" ++ of_string name ++ 58 :: v) in C.
  apply app_inv_head in C. apply app_inv_head in C. now injection C.
Qed.
Lemma not_ice_char : forall a b t, In 45 t -> ~ gen (row a b ice_char) t.
Proof.
  intros a b t H G. apply g_inv_such in G. destruct G as [G _]. apply g_inv_many_chr in G. rewrite Forall_forall in G. specialize (G _ H).
  unfold ice_char, alpha_num in G. lia.
Qed.
Lemma masked_ufrag_breaks : forall h u,
  ~ gen (cats [Lit "a="; Lit "ice-ufrag"; Lit ":"; row 4 256 ice_char])
      (printed_line (TyAttribute (fst (mask_attr (AIceUfrag u) (after anon_new h))))).
Proof.
  intros h u G. pose proof (masked_codes h (VAttr (AIceUfrag u))) as M. cbn [mask_val mask_attr] in M, G.
  destruct (mask_ice_user u (after anon_new h)) as (u' & a'). cbn [fst SpecAnon.fields attr_fields] in *.
  inversion M as [|? ? (k & n & C) _]; subst. destruct k; cbn [is_code] in C; try contradiction. destruct C as (ds & -> & _).
  apply (line_of_value "ice-ufrag" (row 4 256 ice_char) (lit "ice-user-" ++ ds)) in G.
  apply not_ice_char in G; [exact G|]. apply in_app_iff. left. cbn. tauto.
Qed.
Lemma masked_pwd_breaks : forall h u,
  ~ gen (cats [Lit "a="; Lit "ice-pwd"; Lit ":"; row 22 256 ice_char])
      (printed_line (TyAttribute (fst (mask_attr (AIcePwd u) (after anon_new h))))).
Proof.
  intros h u G. pose proof (masked_codes h (VAttr (AIcePwd u))) as M. cbn [mask_val mask_attr] in M, G.
  destruct (mask_ice_password u (after anon_new h)) as (u' & a'). cbn [fst SpecAnon.fields attr_fields] in *.
  inversion M as [|? ? (k & n & C) _]; subst. destruct k; cbn [is_code] in C; try contradiction. destruct C as (ds & -> & _).
  apply (line_of_value "ice-pwd" (row 22 256 ice_char) (lit "ice-password-" ++ ds)) in G.
  apply not_ice_char in G; [exact G|]. apply in_app_iff. left. cbn. tauto.
Qed.
Hypothesis OK : ext_ok E.
Lemma masked_fingerprint_breaks : forall h f,
  ~ gen (cats [Lit "a="; Lit "fingerprint"; Lit ":"; rfc_fingerprint])
      (printed_line (TyAttribute (fst (mask_attr (AFingerprint f) (after anon_new h))))).
Proof.
  intros h f G. destruct (masked_fingerprint_rejected h f 1) as [e R].
  assert (M : In ("fingerprint"%string, cats [Lit "a="; Lit "fingerprint"; Lit ":"; rfc_fingerprint]) (rfc_attributes ++ rfc_lines)).
  { apply in_app_iff. left. unfold rfc_attributes. apply in_app_iff. right.
    change (In ((fun nv => (fst nv, cats [Lit "a="; Lit (fst nv); Lit ":"; snd nv])) ("fingerprint"%string, rfc_fingerprint))
      (map (fun nv => (fst nv, cats [Lit "a="; Lit (fst nv); Lit ":"; snd nv])) rfc_values)).
    apply in_map. cbn [rfc_values In]. tauto. }
  destruct (lines_retaken OK "fingerprint"%string _ _ ltac:(discriminate) ltac:(discriminate) M G 1%nat) as (ty & P & _). congruence.
Qed.

(** ** Lines that do *)
Lemma good_address : forall x, Forall field_good (address_fields x) -> gen address_rule (show_address x).
Proof.
  intros x F. destruct (address_good OK x F) as (R & W & _). exact (address_printed OK _ _ (proj2 (address_read OK x W R))).
Qed.
Lemma good_ip4 : forall n, ip_range (V4 n) -> gen ip4 (show_ip4 n).
Proof. intros n R. apply (g_ip4_text _ n), parse_show_ip4. cbn in R. unfold u32_max. unfold u32, u32_max in R. lia. Qed.
Lemma good_ip6 : forall n, ip_range (V6 n) -> gen ip6 (show_ip6 n).
Proof. intros n R. apply (g_ip6_text _ n), parse_show_ip6. cbn in R. unfold u128, u128_max in *. lia. Qed.
Lemma good_typed : forall x, Forall field_good (typed_fields x) -> gen typed (show_typed_address x).
Proof.
  intros [k d|[n|n]] F; inversion F as [|? ? G _]; subst; cbn [field_good] in G; unfold typed, show_typed_address; cbn [typed_addr_type ip_addr_type].
  - pose proof (domain_printed OK d d (reads_domain OK d G)) as D.
    destruct k; [apply gen_or_left|apply gen_or_right].
    + parts [of_string "IN"; lit " "; of_string "IP4"; lit " "; d]; [apply g_nocase_itself|apply g_nocase_itself| |flat].
      apply gen_or_right. exact D.
    + parts [of_string "IN"; lit " "; of_string "IP6"; lit " "; d]; [apply g_nocase_itself|apply g_nocase_itself| |flat].
      apply gen_or_right. exact D.
  - apply gen_or_left. parts [of_string "IN"; lit " "; of_string "IP4"; lit " "; show_ip4 n]; [apply g_nocase_itself|apply g_nocase_itself| |flat].
    apply gen_or_left. exact (good_ip4 _ G).
  - apply gen_or_right. parts [of_string "IN"; lit " "; of_string "IP6"; lit " "; show_ip6 n]; [apply g_nocase_itself|apply g_nocase_itself| |flat].
    apply gen_or_left. exact (good_ip6 _ G).
Qed.
Lemma candidate_masked : forall c c', candidate_out c -> ren_candidate blank c' = ren_candidate blank c ->
  Forall field_good (candidate_fields c') -> candidate_out c'.
Proof.
  intros c c' [O1 O2 O3 O4 O5 O6 O7 O8] H F.
  unfold ren_candidate in H. injection H as E1 E2 E3 E4 E5 E6 E7 E8 E9 E10 E11 E12 E13.
  unfold candidate_fields in F. apply Forall_app in F. destruct F as (Fa & F). apply Forall_app in F. destruct F as (Fp & F).
  apply Forall_app in F. destruct F as (Fra & Frp). constructor.
  - rewrite E1. exact O1.
  - rewrite E2. exact O2.
  - rewrite E4. exact O3.
  - exact (good_address _ Fa).
  - now inversion Fp.
  - destruct (raddr c'); [|exact I]. exact (good_address _ Fra).
  - destruct (rport c'); [|exact I]. cbn [option_fields] in Frp. now inversion Frp.
  - unfold printed_extensions in *. rewrite E9, E10, E11, E12, E13. exact O8.
Qed.
Lemma line_read : forall ty v n, plain ty -> type_value v ty ->
  parse_sdp_line ([line_letter ty; 61] ++ v) n = Ok {| l_number := n; l_type := ty; l_text := [line_letter ty; 61] ++ v |}.
Proof.
  intros ty v n C T. apply line_iff.
  - destruct ty; try exact I. destruct C.
  - split; [reflexivity|]. split; [reflexivity|]. cbn [l_type l_text]. exists [], (line_letter ty), [], v.
    split; [reflexivity|]. split; [constructor|]. split; [constructor|]. split; [reflexivity|exact T].
Qed.
(** What the address of a c= line that follows a rule can be replaced with. *)
Definition connection_kept (r : abnf) (c : connection) : Prop := forall x, ren_typed blank x = ren_typed blank (conn_address c) ->
  Forall field_good (typed_fields x) ->
  gen r (printed_line (TyConnection {| conn_address := x; conn_ttl := conn_ttl c; conn_amount := conn_amount c |})).
Lemma connection_read : forall r net ty rest k c n, word net -> word ty -> word rest -> means_upper net "IN" ->
  means_upper ty (addr_type_name k) ->
  (exists addr opts, SpecVal.fields 47 rest (addr :: opts) /\ reads_typed k addr (conn_address c) /\
      match opts with
      | [] => conn_ttl c = None /\ conn_amount c = None
      | [ttl] => (exists n, conn_ttl c = Some n /\ numeral u8_max ttl n) /\ conn_amount c = None
      | ttl :: amount :: _ =>
          (exists n, conn_ttl c = Some n /\ numeral u8_max ttl n) /\
          (exists n, conn_amount c = Some n /\ numeral u32_max amount n)
      end) -> connection_kept r c ->
  exists c l, parse_sdp_line ([99; 61] ++ net ++ leads 32 [ty; rest]) n = Ok l /\ l_type l = TyConnection c /\ connection_kept r c.
Proof.
  intros r net ty rest k c n W1 W2 W3 M1 M2 H K. exists c. eexists. split; [apply (line_read (TyConnection c))|split; [reflexivity|exact K]].
  - exact I.
  - exists net, ty, rest, k. split; [apply words_leads; fa; assumption|]. auto.
Qed.
Ltac this t := match goal with |- exists c l, parse_sdp_line ?u _ = _ /\ _ => replace u with t by flat end.
Ltac line := unfold printed_line; cbn [line_letter item_text]; unfold show_connection; cbn [conn_address conn_ttl conn_amount show_opt].
Lemma connections_kept : forall r t n, In ("c"%string, r) rfc_lines -> gen r t ->
  exists c l, parse_sdp_line t n = Ok l /\ l_type l = TyConnection c /\ connection_kept r c.
Proof.
  intros r t n M H. unfold rfc_lines in M. cbn [In] in M.
  destruct M as [M|[M|[M|[M|[M|[M|[M|[M|[M|[M|[]]]]]]]]]]]; try discriminate M; injection M as Q.
  - change (cats [Lit "c="; typed] = r) in Q.
    rewrite <- Q in H. pieces H. apply (g_typed OK) in G0. destruct G0 as (net & ty & addr & k & a & -> & V1 & V2 & V3 & M1 & M2 & S & R).
    this ([99; 61] ++ net ++ leads 32 [ty; addr]).
    apply (connection_read _ net ty addr k {| conn_address := a; conn_ttl := None; conn_amount := None |}); auto.
    + exists addr, []. split; [apply fields_last, S|]. split; [exact R|]. split; reflexivity.
    + intros x _ F. line. parts [lit "c="; show_typed_address x]; [exact (good_typed _ F)|flat].
  - change (cats [ Lit "c="; nocase "IN"; Lit " "; nocase "IP4"; Lit " "; ip4; Lit "/"; SpecRfc.at_most 255; opt (Cat (Lit "/") (SpecRfc.at_most u32_max)) ] = r) in Q.
    rewrite <- Q in H. pieces H. apply g_inv_nocase in G0. apply g_inv_nocase in G2. pose proof G6 as GT.
    pose proof (recased_is_word _ _ G0 eq_refl) as V0. pose proof (recased_is_word _ _ G2 eq_refl) as V2.
    apply recased_means_upper in G0. apply recased_means_upper in G2.
    apply (g_ip4 OK) in G4. destruct G4 as (W4 & S4 & m & R). apply PRfc.g_at_most in G6. destruct G6 as (W6 & D6 & U6).
    assert (GP : forall am x, gen (opt (Cat (Lit "/") (SpecRfc.at_most u32_max))) am ->
      ren_typed blank x = ren_typed blank (TIp (V4 m)) -> Forall field_good (typed_fields x) ->
      gen (cats [ Lit "c="; nocase "IN"; Lit " "; nocase "IP4"; Lit " "; ip4; Lit "/"; SpecRfc.at_most 255; opt (Cat (Lit "/") (SpecRfc.at_most u32_max)) ]) (99 :: 61 :: show_typed_address x ++ 47 :: show_N (dec_value x6) ++ am)).
    { intros am x GA B F. destruct x as [|[y|y]]; try discriminate B. inversion F as [|? ? G _]; subst. cbn [field_good] in G.
      parts [lit "c="; of_string "IN"; lit " "; of_string "IP4"; lit " "; show_ip4 y; lit "/"; show_N (dec_value x6); am];
        [apply g_nocase_itself|apply g_nocase_itself|exact (good_ip4 _ G)|apply g_again, GT|exact GA|].
      unfold show_typed_address. cbn [typed_addr_type ip_addr_type show_addr_type show_ip]. flat. }
    apply g_inv_opt in G7. destruct G7 as [->|G7].
    + this ([99; 61] ++ x0 ++ leads 32 [x2; x4 ++ leads 47 [x6]]).
      apply (connection_read _ x0 x2 _ IpV4 {| conn_address := TIp (V4 m); conn_ttl := Some (dec_value x6); conn_amount := None |}); auto.
      * apply slash_word; fa; assumption.
      * exists x4, [x6]. split; [apply slash_fields; fa; [exact S4|apply digits_47, D6]|]. split; [right; left; eauto|]. cbn [conn_ttl conn_amount]. split; eauto.
      * intros x B F. specialize (GP [] x (g_none _) B F). line. rewrite ?app_nil_r in *. exact GP.
    + apply g_inv_cat in G7. destruct G7 as [u [w [-> [A B]]]]. apply g_inv_lit in A. subst u. pose proof B as GB. apply PRfc.g_at_most in B. destruct B as (W7 & D7 & U7).
      this ([99; 61] ++ x0 ++ leads 32 [x2; x4 ++ leads 47 [x6; w]]).
      apply (connection_read _ x0 x2 _ IpV4 {| conn_address := TIp (V4 m); conn_ttl := Some (dec_value x6); conn_amount := Some (dec_value w) |}); auto.
      * apply slash_word; fa; assumption.
      * exists x4, [x6; w]. split; [apply slash_fields; fa; [exact S4|apply digits_47, D6|apply digits_47, D7]|]. split; [right; left; eauto|].
        cbn [conn_ttl conn_amount]. split; eauto.
      * intros x B F. assert (GA : gen (opt (Cat (Lit "/") (SpecRfc.at_most u32_max))) (47 :: show_N (dec_value w))).
        { apply g_opt. apply (gen_cat _ _ (lit "/")); [apply gen_lit|apply g_again, GB]. }
        specialize (GP _ x GA B F). line. rewrite ?app_nil_r in *. rewrite <- ?app_assoc. exact GP.
  - change (cats [Lit "c="; nocase "IN"; Lit " "; nocase "IP6"; Lit " "; ip6; Lit "/"; SpecRfc.at_most 255] = r) in Q.
    rewrite <- Q in H. pieces H. apply g_inv_nocase in G0. apply g_inv_nocase in G2. pose proof G6 as GT.
    pose proof (recased_is_word _ _ G0 eq_refl) as V0. pose proof (recased_is_word _ _ G2 eq_refl) as V2.
    apply recased_means_upper in G0. apply recased_means_upper in G2.
    apply g_ip6 in G4. destruct G4 as (W4 & S4 & m & R). apply PRfc.g_at_most in G6. destruct G6 as (W6 & D6 & U6).
    this ([99; 61] ++ x0 ++ leads 32 [x2; x4 ++ leads 47 [x6]]).
    apply (connection_read _ x0 x2 _ IpV6 {| conn_address := TIp (V6 m); conn_ttl := Some (dec_value x6); conn_amount := None |}); auto.
    + apply slash_word; fa; assumption.
    + exists x4, [x6]. split; [apply slash_fields; fa; [exact S4|apply digits_47, D6]|]. split; [right; right; eauto|]. cbn [conn_ttl conn_amount]. split; eauto.
    + intros x B F. line. cbn [conn_address] in B. destruct x as [|[y|y]]; try discriminate B. inversion F as [|? ? G _]; subst. cbn [field_good] in G.
      parts [lit "c="; of_string "IN"; lit " "; of_string "IP6"; lit " "; show_ip6 y; lit "/"; show_N (dec_value x6)];
        [apply g_nocase_itself|apply g_nocase_itself|exact (good_ip6 _ G)|apply g_again, GT|].
      unfold show_typed_address. cbn [typed_addr_type ip_addr_type show_addr_type show_ip]. flat.
Qed.
Lemma one_remote_starts : forall t, gen one_remote t -> exists d rest, t = d ++ 32 :: rest /\ gen (row 1 3 (fun c => 48 <= c <= 57)) d.
Proof.
  intros t H. pieces H. exists x, (x1 ++ lit " " ++ x3). split; [|exact G]. cbn [List.concat]. rewrite app_nil_r. reflexivity.
Qed.
Lemma digits_no_space : forall t, Forall (fun c => 48 <= c <= 57) t -> ~ In 32 t.
Proof. intros t F H. rewrite Forall_forall in F. specialize (F _ H). lia. Qed.
Lemma remote_component : forall c, gen rfc_remote_candidates (show_remote_candidate c) ->
  gen (row 1 3 (fun c => 48 <= c <= 57)) (show_N (rc_component c)).
Proof.
  intros c H. apply (g_inv_list 32) in H; [|reflexivity]. destruct H as [x [l [F Q]]]. inversion F as [|? ? H _]; subst. clear F.
  apply one_remote_starts in H. destruct H as (d & rest & -> & G). pose proof G as K. apply PRfc.g_row in K; [|lia]. destruct K as (_ & D & _).
  unfold show_remote_candidate in Q. rewrite <- app_assoc in Q.
  destruct (PRfc10.cut_once 32 (d ++ (32 :: rest) ++ leads 32 l) d (rest ++ leads 32 l) (show_N (rc_component c))
    (show_address (rc_address c) ++ sp ++ show_N (rc_port c))) as [<- _].
  - split; [reflexivity|exact (digits_no_space _ D)].
  - split; [rewrite <- Q; reflexivity|]. apply digits_no_space. pose proof (show_N_digits (rc_component c)) as X. rewrite forallb_forall in X.
    apply Forall_forall. intros y Y. specialize (X y Y). unfold Ext0.is_digit in X. lia.
  - exact G.
Qed.
(** ** All lines *)
Lemma flag_rules : forall k r, In (k, r) (map (fun n => (n, Cat (Lit "a=") (Lit n))) flags) -> In k flags.
Proof. intros k r M. apply in_map_iff in M. destruct M as [n [Q M]]. injection Q as <- _. exact M. Qed.
Lemma value_rules : forall k r, In (k, r) (map (fun nv => (fst nv, cats [Lit "a="; Lit (fst nv); Lit ":"; snd nv])) rfc_values) ->
  exists rule, In (k, rule) rfc_values /\ r = cats [Lit "a="; Lit k; Lit ":"; rule].
Proof. intros k r M. apply in_map_iff in M. destruct M as [[n rule] [Q M]]. injection Q as <- <-. exists rule. auto. Qed.
Ltac cases_of M := repeat match type of M with _ \/ _ => destruct M as [M|M] | False => destruct M | _ = _ => discriminate M end.
Lemma candidate_rule : forall r, In ("candidate"%string, r) (rfc_attributes ++ rfc_lines) -> r = cats [Lit "a="; Lit "candidate"; Lit ":"; rfc_candidate].
Proof.
  intros r M. apply in_app_iff in M. destruct M as [M|M]; [|unfold rfc_lines in M; cbn [In] in M; cases_of M].
  apply in_app_iff in M. destruct M as [M|M]; [apply flag_rules in M; unfold flags in M; cbn [In] in M; cases_of M|].
  apply value_rules in M. destruct M as (rule & M & ->). unfold rfc_values in M. cbn [In] in M. cases_of M. injection M as <-. reflexivity.
Qed.
Lemma remote_rule : forall r, In ("remote-candidates"%string, r) (rfc_attributes ++ rfc_lines) -> r = cats [Lit "a="; Lit "remote-candidates"; Lit ":"; rfc_remote_candidates].
Proof.
  intros r M. apply in_app_iff in M. destruct M as [M|M]; [|unfold rfc_lines in M; cbn [In] in M; cases_of M].
  apply in_app_iff in M. destruct M as [M|M]; [apply flag_rules in M; unfold flags in M; cbn [In] in M; cases_of M|].
  apply value_rules in M. destruct M as (rule & M & ->). unfold rfc_values in M. cbn [In] in M. cases_of M. injection M as <-. reflexivity.
Qed.
Lemma letter_rule : forall k r, In k ["c"; "o"]%string -> In (k, r) (rfc_attributes ++ rfc_lines) -> In (k, r) rfc_lines.
Proof.
  intros k r K M. apply in_app_iff in M. destruct M as [M|M]; [|exact M]. exfalso.
  apply in_app_iff in M. destruct M as [M|M].
  - apply flag_rules in M. cbn [In] in K. destruct K as [<-|[<-|[]]]; unfold flags in M; cbn [In] in M; cases_of M.
  - apply value_rules in M. destruct M as (rule & M & _). cbn [In] in K. destruct K as [<-|[<-|[]]]; unfold rfc_values in M; cbn [In] in M; cases_of M.
Qed.
Lemma origin_rule : forall r, In ("o"%string, r) rfc_lines ->
  r = cats [Lit "o="; non_ws; Lit " "; SpecRfc.at_most u64_max; Lit " "; SpecRfc.at_most u64_max; Lit " "; typed].
Proof. intros r M. unfold rfc_lines in M. cbn [In] in M. cases_of M. injection M as <-. reflexivity. Qed.
Lemma address_no_print : forall a, no_fingerprint (address_fields a).
Proof. intros [d|i]; (apply Forall_cons; [intros [y Y]; discriminate Y|apply Forall_nil]). Qed.
Lemma typed_no_print : forall a, no_fingerprint (typed_fields a).
Proof. intros [k d|i]; (apply Forall_cons; [intros [y Y]; discriminate Y|apply Forall_nil]). Qed.
Lemma port_no_print : forall p, no_fingerprint [FPort p].
Proof. intro p. apply Forall_cons; [intros [y Y]; discriminate Y|apply Forall_nil]. Qed.
Lemma attr_no_print : forall x, (forall f, x <> AFingerprint f) -> no_fingerprint (attr_fields x).
Proof.
  intros x H. destruct x; cbn [attr_fields]; try apply Forall_nil; try (exfalso; eapply H; reflexivity).
  - unfold candidate_fields. apply Forall_app. split; [apply address_no_print|]. apply Forall_app. split; [apply port_no_print|].
    apply Forall_app. split; [destruct (raddr _); [apply address_no_print|apply Forall_nil]|].
    destruct (rport _); [apply port_no_print|apply Forall_nil].
  - apply Forall_cons; [intros [y Y]; discriminate Y|apply Forall_nil].
  - apply Forall_cons; [intros [y Y]; discriminate Y|apply Forall_nil].
  - apply Forall_app. split; [apply address_no_print|apply port_no_print].
  - unfold ssrc_fields. destruct (ssrc_attribute _) as [w|]; [|apply Forall_nil]. destruct (ssrc_value _); [|apply Forall_nil].
    destruct (is_cname w); [|apply Forall_nil]. apply Forall_cons; [intros [y Y]; discriminate Y|apply Forall_nil].
Qed.
Lemma masked_line_follows : masked_names_are_domains -> forall h k r t n v l ty',
  k <> "fmtp"%string -> k <> "ssrc"%string -> k <> "ice-ufrag"%string -> k <> "ice-pwd"%string -> k <> "fingerprint"%string ->
  In (k, r) (rfc_attributes ++ rfc_lines) -> gen r t -> parse_sdp_line t n = Ok l ->
  line_value v = Some (l_type l) -> line_value (fst (mask_val v (after anon_new h))) = Some ty' ->
  ports_fit (flat_map SpecAnon.fields (h ++ [v])) -> gen r (printed_line ty').
Proof.
  intros D h k r t n v l ty' N1 N2 N3 N4 N5 M G P V V' PF.
  destruct (lines_retaken OK k r t N1 N2 M G n) as (ty & P' & K & GK). pose proof P as P0. rewrite P' in P. injection P as <-. cbn [l_type] in *.
  destruct v; cbn [line_value] in V; try discriminate V; injection V as <-.
  - cbn [item_name] in K.
    assert (R : attr_regular x) by (destruct x; try exact I; exfalso; apply N2; rewrite <- K; reflexivity).
    pose proof (masking_keeps h (VAttr x) R) as B.
    assert (NF : no_fingerprint (SpecAnon.fields (VAttr x))).
    { apply attr_no_print. intros f ->. apply N5. rewrite <- K. reflexivity. }
    pose proof (masked_good h (VAttr x) D PF NF) as Go. cbn [mask_val] in *. destruct (mask_attr x (after anon_new h)) as (x' & a').
    cbn [fst line_value] in *. injection V' as <-. cbn [SpecAnon.fields ren_val] in *. injection B as B.
    destruct (ren_cases _ _ B) as [->|[S S']]; [exact GK|].
    destruct x; cbn [sensitive] in S; try contradiction; try (exfalso; first [apply N2; rewrite <- K; reflexivity|apply N3; rewrite <- K; reflexivity|apply N4; rewrite <- K; reflexivity|apply N5; rewrite <- K; reflexivity]);
      destruct x'; try discriminate B; cbn [ren_attr attr_fields] in *.
    + assert (B' : ren_candidate blank a0 = ren_candidate blank a) by congruence. clear B.
      subst k. apply candidate_rule in M. subst r. clear GK P'. pieces G. destruct (candidate_parts OK _ G2) as (y & V & _ & O).
      pose proof (attr_line _ (ACandidate y) n V I) as L.
      change (parse_sdp_line (lit "a=" ++ lit "candidate" ++ 58 :: x2) n = Ok {| l_number := n; l_type := TyAttribute (ACandidate y);
        l_text := lit "a=" ++ lit "candidate" ++ 58 :: x2 |}) in L.
      replace (List.concat _) with (lit "a=" ++ lit "candidate" ++ 58 :: x2) in P0 by flat. rewrite L in P0. injection P0 as ->.
      pose proof (candidate_masked _ _ O B' Go) as O'. pose proof (candidate_printed _ O') as GC. pose proof (co_foundation _ O') as GF.
      apply PRfc.g_row in GF; [|lia]. destruct GF as (NE & _).
      parts [lit "a="; lit "candidate"; lit ":"; show_candidate a0]; [exact GC|].
      unfold printed_line. cbn [line_letter item_text show_attr]. rewrite shown; [flat|].
      unfold show_candidate. destruct (foundation a0); [congruence|discriminate].
    + assert (B' : ren_remote blank a0 = ren_remote blank a) by congruence. clear B.
      subst k. apply remote_rule in M. subst r.
      assert (SH : forall c, printed_line (TyAttribute (ARemoteCandidate c)) = lit "a=" ++ lit "remote-candidates" ++ 58 :: show_remote_candidate c).
      { intro c. unfold printed_line. cbn [line_letter item_text show_attr]. rewrite shown; [reflexivity|].
        unfold show_remote_candidate. pose proof (show_N_nonempty (rc_component c)). destruct (show_N (rc_component c)); [congruence|discriminate]. }
      rewrite SH in GK |- *. apply (line_of_value "remote-candidates" rfc_remote_candidates) in GK. apply remote_component in GK.
      apply Forall_app in Go. destruct Go as [Ga Gp]. inversion Gp as [|? ? Gp' _]; subst. cbn [field_good] in Gp'.
      parts [lit "a="; lit "remote-candidates"; lit ":"; show_remote_candidate a0]; [|flat]. apply g_one. unfold show_remote_candidate.
      assert (Q : rc_component a0 = rc_component a) by (unfold ren_remote in B'; congruence). rewrite Q.
      parts [show_N (rc_component a); lit " "; show_address (rc_address a0); lit " "; show_N (rc_port a0)];
        [exact GK|exact (good_address _ Ga)|apply g_number, Gp'|flat].
  - cbn [item_name] in K. subst k. apply letter_rule in M; [|cbn; tauto].
    destruct (connections_kept r t n M G) as (y & l & L & T & C). rewrite P0 in L. injection L as <-. cbn [l_type] in T. injection T as <-.
    pose proof (masking_keeps h (VConnection c) I) as B. pose proof (masked_good h (VConnection c) D PF (typed_no_print _)) as Go.
    cbn [mask_val] in *. destruct (mask_connection c (after anon_new h)) as (c' & a').
    cbn [fst line_value] in *. injection V' as <-. cbn [SpecAnon.fields ren_val] in *. unfold connection_fields in Go.
    assert (B' : ren_connection blank c' = ren_connection blank c) by congruence. clear B. unfold ren_connection in B'.
    specialize (C (conn_address c') ltac:(congruence) Go).
    replace (conn_ttl c) with (conn_ttl c') in C by congruence. replace (conn_amount c) with (conn_amount c') in C by congruence.
    destruct c'. exact C.
  - cbn [item_name] in K. subst k. apply letter_rule in M; [|cbn; tauto]. apply origin_rule in M. subst r.
    pose proof (line_range OK _ _ _ P0) as R. cbn [l_type item_range] in R. destruct R as (R1 & R2 & _).
    pose proof (masking_keeps h (VOrigin o) I) as B. pose proof (masked_codes h (VOrigin o)) as MC.
    assert (NF : no_fingerprint (SpecAnon.fields (VOrigin o))).
    { apply Forall_cons; [intros [y Y]; discriminate Y|apply typed_no_print]. }
    pose proof (masked_good h (VOrigin o) D PF NF) as Go.
    cbn [mask_val] in *. destruct (mask_origin o (after anon_new h)) as (o' & a').
    cbn [fst line_value] in *. injection V' as <-. cbn [SpecAnon.fields ren_val] in *.
    assert (B' : ren_origin blank o' = ren_origin blank o) by congruence. clear B. unfold ren_origin in B'. injection B' as B1 B2 B3.
    unfold origin_fields in *. inversion MC as [|? ? (k & m & C) _]; subst. inversion Go as [|? ? _ Gt]; subst.
    destruct k; cbn [is_code] in C; try contradiction.
    apply (numbered_chars (fun c => 33 <= c /\ c <> 127 /\ is_ws c = false)) in C as CH;
      [|repeat (apply Forall_cons; [split; [lia|split; [discriminate|reflexivity]]|]); apply Forall_nil
       |intros c Hc; split; [lia|split; [lia|exact (digit_solid c Hc)]]].
    unfold printed_line. cbn [line_letter item_text]. unfold show_origin. rewrite B1, B2.
    parts [lit "o="; o_username o'; lit " "; show_N (o_session_id o); lit " "; show_N (o_session_version o); lit " "; show_typed_address (o_unicast_addr o')];
      [|apply g_number, R1|apply g_number, R2|exact (good_typed _ Gt)|flat].
    destruct C as (ds & Q & _). apply PRfc9.g_many1; [rewrite Q; discriminate|exact CH].
Qed.
(** ** ssrc *)
Lemma masked_ssrc_follows : forall h t n s l, gen (cats [Lit "a="; Lit "ssrc"; Lit ":"; rfc_ssrc]) t ->
  parse_sdp_line t n = Ok l -> l_type l = TyAttribute (ASsrc s) ->
  ssrc_value s <> Some [] \/ (exists a, ssrc_attribute s = Some a /\ is_cname a = true) ->
  gen (cats [Lit "a="; Lit "ssrc"; Lit ":"; rfc_ssrc]) (printed_line (TyAttribute (fst (mask_attr (ASsrc s) (after anon_new h))))).
Proof.
  intros h t n s l G P T N. destruct (ssrc_parts t n G) as (s' & P' & (a & A & GA) & K). pose proof P as P0. rewrite P' in P. injection P as <-.
  cbn [l_type] in T. injection T as ->.
  pose proof (line_range OK _ _ _ P0) as R. cbn [l_type item_range attr_range] in R.
  pose proof (masked_codes h (VAttr (ASsrc s))) as M. cbn [mask_val mask_attr] in *. unfold mask_ssrc in *. rewrite A in *.
  destruct (ssrc_value s) as [w|]; [|apply K; discriminate].
  destruct (str_eqb (to_lower a) (lit "cname")) eqn:C.
  2: { apply K. destruct N as [N|(b & B & N)]; [exact N|]. injection B as <-. unfold is_cname in N. congruence. }
  destruct (mask_cname w (after anon_new h)) as (w' & a'). cbn [fst SpecAnon.fields attr_fields] in *. unfold ssrc_fields in M.
  cbn [ssrc_attribute ssrc_value] in M. unfold is_cname in M. rewrite C in M. inversion M as [|? ? (k & m & Q) _]; subst.
  destruct k; cbn [is_code] in Q; try contradiction.
  apply (numbered_chars (fun c => c <> 0 /\ c <> 10 /\ c <> 13)) in Q as CH;
    [|repeat (apply Forall_cons; [split; [discriminate|split; discriminate]|]); apply Forall_nil|intros c Hc; lia].
  destruct Q as (ds & Q & _).
  unfold printed_line. cbn [line_letter item_text show_attr]. unfold show_ssrc. cbn [ssrc_id].
  rewrite (words_shown TSsrc _ _ (word_N (ssrc_id s))). cbn [ssrc_attribute ssrc_value show_opt].
  parts [lit "a="; lit "ssrc"; lit ":"; show_N (ssrc_id s) ++ 32 :: a ++ 58 :: w']; [|flat].
  parts [show_N (ssrc_id s); lit " "; a; 58 :: w']; [apply g_number, R|exact GA| |flat].
  apply g_opt. apply (gen_cat _ _ (lit ":")); [constructor|]. apply PRfc9.g_many1; [rewrite Q; discriminate|exact CH].
Qed.
End WithExt.

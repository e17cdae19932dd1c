(** * Lines of the RFCs are printed as lines of the RFCs (C80): lines other than attributes *)
From Coq Require Import List Arith NArith ZArith Lia Bool Ascii String.
From Coq Require Import ZifyBool ZifyNat ZifyN.
From Verif Require Import Str Num Net Types Ext Show Address AttrParse Media Session SpecApi SpecDoc SpecVal SpecItems
  SpecPrint SpecIp SpecGrammar.
From Verif Require Import StrLemmas NumLemmas NetLemmas PVal PVal2 PVal5 PVal6 PVal8 PVal9 PVal10 PVal11 PPrint PPrint2 PPrint3 PPrint4
  PPrint9 PPrint11 PIp PIp2.
From Verif Require Import SpecRfc PRfc PRfc2 PRfc3 PRfc4 PRfc7 PRfc9 PRfc16 PRfc17 PRfc18.
Import ListNotations.
Open Scope N_scope.
Open Scope list_scope.

(** Equality that [subst] does not use. *)
Definition is_rule (r s : abnf) : Prop := r = s.
Infix "==" := is_rule (at level 70, no associativity).

Section WithExt.
Context {E : Ext}.
Definition retaken (r : abnf) (name : string) (t : str) : Prop := forall n, exists ty,
  parse_sdp_line t n = Ok {| l_number := n; l_type := ty; l_text := t |} /\ item_name ty = name /\ gen r (printed_line ty).
Lemma retake : forall r ty v, plain ty -> type_value v ty -> gen r (printed_line ty) -> retaken r (item_name ty) ([line_letter ty; 61] ++ v).
Proof.
  intros r ty v C T G n. exists ty. split; [|split; [reflexivity|exact G]]. apply line_iff.
  - destruct ty; try exact I. destruct C.
  - split; [reflexivity|]. split; [reflexivity|]. cbn [l_type l_text]. exists [], (line_letter ty), [], v.
    split; [reflexivity|]. split; [constructor|]. split; [constructor|]. split; [reflexivity|exact T].
Qed.
Hypothesis OK : ext_ok E.
Ltac this t := match goal with |- retaken _ _ ?u => replace u with t by flat end.
Ltac line := unfold printed_line; cbn [line_letter item_text].
Lemma p_version : retaken (Lit "v=0") "v" (lit "v=0").
Proof.
  apply (retake _ (TyVersion 0) [48]); [exact I| |exact (gen_lit "v=0")]. exists [48]. split; [apply word_core, word_b; reflexivity|]. split; [|reflexivity].
  exists [48]. split; [left; reflexivity|]. split; [discriminate|]. split; [constructor; [unfold is_digit; lia|constructor]|].
  split; [reflexivity|]. unfold u64_max. lia.
Qed.
Lemma p_origin : forall r t, r == cats [Lit "o="; non_ws; Lit " "; at_most u64_max; Lit " "; at_most u64_max; Lit " "; typed] -> gen r t -> retaken r "o" t.
Proof.
  intros r t Q H. rewrite (Q : r = _) in H. pieces H. pose proof G0 as A. pose proof G2 as B. pose proof G4 as C.
  apply non_ws_word in G0. apply PRfc.g_at_most in G2, G4. destruct G2 as (W2 & _ & U2), G4 as (W4 & _ & U4).
  apply (g_typed OK) in G6. destruct G6 as (net & ty & addr & k & a & -> & V1 & V2 & V3 & M1 & M2 & _ & R).
  this ([111; 61] ++ x0 ++ leads 32 [x2; x4; net; ty; addr]).
  apply (retake _ (TyOrigin {| o_username := x0; o_session_id := dec_value x2; o_session_version := dec_value x4; o_unicast_addr := a |}));
    [exact I| |].
  - exists x0, x2, x4, net, ty, addr, [], k. split; [apply words_leads; fa; assumption|]. auto 10.
  - rewrite (Q : r = _). line. unfold show_origin. cbn [o_username o_session_id o_session_version o_unicast_addr].
    parts [lit "o="; x0; lit " "; show_N (dec_value x2); lit " "; show_N (dec_value x4); lit " "; show_typed_address a];
      [exact A|apply g_again, B|apply g_again, C|exact (typed_printed OK _ _ _ R)|flat].
Qed.
Lemma p_session : forall r t, r == Cat (Lit "s=") byte_string -> gen r t -> retaken r "s" t.
Proof.
  intros r t Q H. pose proof H as G. rewrite (Q : r = _) in H. apply g_inv_cat in H. destruct H as [x [y [-> [H K]]]]. apply g_inv_lit in H. subst x.
  apply (retake _ (TySession y)); [exact I|reflexivity|exact G].
Qed.
Lemma p_timing : forall r t, r == cats [Lit "t="; at_most u64_max; Lit " "; at_most u64_max] -> gen r t -> retaken r "t" t.
Proof.
  intros r t Q H. rewrite (Q : r = _) in H. pieces H. pose proof G0 as A. pose proof G2 as B.
  apply PRfc.g_at_most in G0, G2. destruct G0 as (W0 & _ & U0), G2 as (W2 & _ & U2).
  this ([116; 61] ++ x0 ++ leads 32 [x2]).
  apply (retake _ (TyTiming {| t_start := dec_value x0; t_stop := dec_value x2 |})); [exact I| |].
  - exists x0, x2. split; [apply words_leads; fa; assumption|]. auto.
  - rewrite (Q : r = _). line. unfold show_timing. cbn [t_start t_stop].
    parts [lit "t="; show_N (dec_value x0); lit " "; show_N (dec_value x2)]; [apply g_again, A|apply g_again, B|flat].
Qed.
Lemma p_bandwidth : forall r t, r == cats [Lit "b="; token; Lit ":"; at_most u32_max] -> gen r t -> retaken r "b" t.
Proof.
  intros r t Q H. rewrite (Q : r = _) in H. pieces H. pose proof G0 as GA. pose proof G2 as GB.
  apply g_token in G0. destruct G0 as [W0 F0]. apply PRfc.g_at_most in G2. destruct G2 as (W2 & D2 & U2).
  this ([98; 61] ++ x0 ++ 58 :: x2).
  assert (C : core (x0 ++ 58 :: x2) (x0 ++ 58 :: x2)).
  { apply core_self; [apply starts_app, word_starts, W0|apply ends_app, ends_cons, word_ends, W2]. }
  assert (FS : fields 58 (x0 ++ 58 :: x2) [x0; x2]).
  { apply fields_more; [apply (class_no _ _ _ F0); unfold token_char; lia|]. apply fields_last. apply (class_no _ _ _ D2). unfold is_digit. lia. }
  assert (GP : forall w, gen token w -> gen r (98 :: 61 :: w ++ [c_colon] ++ show_N (dec_value x2))).
  { intros w T. rewrite (Q : r = _). parts [lit "b="; w; lit ":"; show_N (dec_value x2)]; [exact T|apply g_again, GB|flat]. }
  assert (K : exists b, ((means_upper x0 "AS" /\ b = BwAs (dec_value x2)) \/ (means_upper x0 "CT" /\ b = BwCt (dec_value x2)) \/
     (means_upper x0 "TIAS" /\ b = BwTias (dec_value x2)) \/
     (~ means_upper x0 "AS" /\ ~ means_upper x0 "CT" /\ ~ means_upper x0 "TIAS" /\ b = BwUnknown x0 (dec_value x2))) /\
     gen r (98 :: 61 :: show_bandwidth b)).
  { assert (TK : forall w, Forall token_char (of_string w) -> of_string w <> [] -> gen token (of_string w)) by (intros w TF TN; apply PRfc9.g_many1; assumption).
    destruct (str_eqb (to_upper x0) (of_string "AS")) eqn:A.
    { eexists; split; [left; split; [apply (upper_test "AS" eq_refl), A|reflexivity]|]. apply (GP (lit "AS")), (TK "AS"%string); [|discriminate].
      change (Forall token_char (lit "AS")); repeat (apply Forall_cons; [unfold token_char; lia|]); apply Forall_nil. }
    destruct (str_eqb (to_upper x0) (of_string "CT")) eqn:B.
    { eexists; split; [right; left; split; [apply (upper_test "CT" eq_refl), B|reflexivity]|]. apply (GP (lit "CT")), (TK "CT"%string); [|discriminate].
      change (Forall token_char (lit "CT")); repeat (apply Forall_cons; [unfold token_char; lia|]); apply Forall_nil. }
    destruct (str_eqb (to_upper x0) (of_string "TIAS")) eqn:D.
    { eexists; split; [right; right; left; split; [apply (upper_test "TIAS" eq_refl), D|reflexivity]|]. apply (GP (lit "TIAS")), (TK "TIAS"%string); [|discriminate].
      change (Forall token_char (lit "TIAS")); repeat (apply Forall_cons; [unfold token_char; lia|]); apply Forall_nil. }
    exists (BwUnknown x0 (dec_value x2)). split; [|apply (GP x0 GA)]. right. right. right. rewrite (upper_test "AS" eq_refl), (upper_test "CT" eq_refl), (upper_test "TIAS" eq_refl), A, B, D.
    split; [discriminate|]. split; [discriminate|]. split; [discriminate|reflexivity]. }
  destruct K as [b [K GK]]. apply (retake _ (TyBandwidth b)); [exact I| |exact GK]. exists (x0 ++ 58 :: x2), x0, x2, (dec_value x2). auto.
Qed.
Lemma connection_retaken : forall r net ty rest k c, word net -> word ty -> word rest -> means_upper net "IN" ->
  means_upper ty (addr_type_name k) ->
  (exists addr opts, fields 47 rest (addr :: opts) /\ reads_typed k addr (conn_address c) /\
      match opts with
      | [] => conn_ttl c = None /\ conn_amount c = None
      | [ttl] => (exists n, conn_ttl c = Some n /\ numeral u8_max ttl n) /\ conn_amount c = None
      | ttl :: amount :: _ =>
          (exists n, conn_ttl c = Some n /\ numeral u8_max ttl n) /\
          (exists n, conn_amount c = Some n /\ numeral u32_max amount n)
      end) -> gen r (printed_line (TyConnection c)) -> retaken r "c" ([99; 61] ++ net ++ leads 32 [ty; rest]).
Proof.
  intros r net ty rest k c W1 W2 W3 M1 M2 H G. apply (retake _ (TyConnection c)); [exact I| |exact G].
  exists net, ty, rest, k. split; [apply words_leads; fa; assumption|]. auto.
Qed.
Lemma p_connection : forall r t, r == cats [Lit "c="; typed] -> gen r t -> retaken r "c" t.
Proof.
  intros r t Q H. rewrite (Q : r = _) in H. pieces H. apply (g_typed OK) in G0. destruct G0 as (net & ty & addr & k & a & -> & V1 & V2 & V3 & M1 & M2 & S & R).
  this ([99; 61] ++ net ++ leads 32 [ty; addr]).
  apply (connection_retaken _ net ty addr k {| conn_address := a; conn_ttl := None; conn_amount := None |}); auto.
  - exists addr, []. split; [apply fields_last, S|]. split; [exact R|]. split; reflexivity.
  - rewrite (Q : r = _). line. unfold show_connection. cbn [conn_address conn_ttl conn_amount show_opt].
    parts [lit "c="; show_typed_address a]; [exact (typed_printed OK _ _ _ R)|flat].
Qed.
Lemma p_connection4 : forall r t, r == cats [ Lit "c="; nocase "IN"; Lit " "; nocase "IP4"; Lit " "; ip4; Lit "/"; at_most 255;
  opt (Cat (Lit "/") (at_most u32_max)) ] -> gen r t -> retaken r "c" t.
Proof.
  intros r t Q H. rewrite (Q : r = _) in H. pieces H. apply g_inv_nocase in G0. apply g_inv_nocase in G2. pose proof G6 as GT.
  pose proof (recased_is_word _ _ G0 eq_refl) as V0. pose proof (recased_is_word _ _ G2 eq_refl) as V2.
  apply recased_means_upper in G0. apply recased_means_upper in G2.
  apply (g_ip4 OK) in G4. destruct G4 as (W4 & S4 & n & R). apply PRfc.g_at_most in G6. destruct G6 as (W6 & D6 & U6).
  assert (GP : forall am, gen (opt (Cat (Lit "/") (at_most u32_max))) am ->
    gen r (99 :: 61 :: show_typed_address (TIp (V4 n)) ++ 47 :: show_N (dec_value x6) ++ am)).
  { intros am GA. rewrite (Q : r = _).
    parts [lit "c="; of_string "IN"; lit " "; of_string "IP4"; lit " "; show_ip4 n; lit "/"; show_N (dec_value x6); am];
      [apply g_nocase_itself|apply g_nocase_itself|exact (ip4_printed OK _ _ R)|apply g_again, GT|exact GA|].
    unfold show_typed_address. cbn [typed_addr_type ip_addr_type show_addr_type show_ip]. flat. }
  apply g_inv_opt in G7. destruct G7 as [->|G7].
  - this ([99; 61] ++ x0 ++ leads 32 [x2; x4 ++ leads 47 [x6]]).
    apply (connection_retaken _ x0 x2 _ IpV4 {| conn_address := TIp (V4 n); conn_ttl := Some (dec_value x6); conn_amount := None |}); auto.
    + apply slash_word; fa; assumption.
    + exists x4, [x6]. split; [apply slash_fields; fa; [exact S4|apply digits_47, D6]|]. split; [right; left; eauto|]. cbn [conn_ttl conn_amount]. split; eauto.
    + specialize (GP [] (g_none _)). line. unfold show_connection. cbn [conn_address conn_ttl conn_amount show_opt]. rewrite ?app_nil_r in *. exact GP.
  - apply g_inv_cat in G7. destruct G7 as [u [w [-> [A B]]]]. apply g_inv_lit in A. subst u. pose proof B as GB. apply PRfc.g_at_most in B. destruct B as (W7 & D7 & U7).
    this ([99; 61] ++ x0 ++ leads 32 [x2; x4 ++ leads 47 [x6; w]]).
    apply (connection_retaken _ x0 x2 _ IpV4 {| conn_address := TIp (V4 n); conn_ttl := Some (dec_value x6); conn_amount := Some (dec_value w) |}); auto.
    + apply slash_word; fa; assumption.
    + exists x4, [x6; w]. split; [apply slash_fields; fa; [exact S4|apply digits_47, D6|apply digits_47, D7]|]. split; [right; left; eauto|].
      cbn [conn_ttl conn_amount]. split; eauto.
    + assert (GA : gen (opt (Cat (Lit "/") (at_most u32_max))) (47 :: show_N (dec_value w))).
      { apply g_opt. apply (gen_cat _ _ (lit "/")); [apply gen_lit|apply g_again, GB]. }
      specialize (GP _ GA). line. unfold show_connection. cbn [conn_address conn_ttl conn_amount show_opt]. rewrite ?app_nil_r in *.
      rewrite <- ?app_assoc. exact GP.
Qed.
Lemma p_connection6 : forall r t, r == cats [Lit "c="; nocase "IN"; Lit " "; nocase "IP6"; Lit " "; ip6; Lit "/"; at_most 255] -> gen r t -> retaken r "c" t.
Proof.
  intros r t Q H. rewrite (Q : r = _) in H. pieces H. apply g_inv_nocase in G0. apply g_inv_nocase in G2. pose proof G6 as GT.
  pose proof (recased_is_word _ _ G0 eq_refl) as V0. pose proof (recased_is_word _ _ G2 eq_refl) as V2.
  apply recased_means_upper in G0. apply recased_means_upper in G2.
  apply g_ip6 in G4. destruct G4 as (W4 & S4 & n & R). apply PRfc.g_at_most in G6. destruct G6 as (W6 & D6 & U6).
  this ([99; 61] ++ x0 ++ leads 32 [x2; x4 ++ leads 47 [x6]]).
  apply (connection_retaken _ x0 x2 _ IpV6 {| conn_address := TIp (V6 n); conn_ttl := Some (dec_value x6); conn_amount := None |}); auto.
  - apply slash_word; fa; assumption.
  - exists x4, [x6]. split; [apply slash_fields; fa; [exact S4|apply digits_47, D6]|]. split; [right; right; eauto|]. cbn [conn_ttl conn_amount]. split; eauto.
  - rewrite (Q : r = _). line. unfold show_connection. cbn [conn_address conn_ttl conn_amount show_opt].
    parts [lit "c="; of_string "IN"; lit " "; of_string "IP6"; lit " "; show_ip6 n; lit "/"; show_N (dec_value x6)];
      [apply g_nocase_itself|apply g_nocase_itself|exact (ip6_printed OK _ _ R)|apply g_again, GT|].
    unfold show_typed_address. cbn [typed_addr_type ip_addr_type show_addr_type show_ip]. flat.
Qed.
Lemma ports_printed : forall t, gen ports t -> word t /\ exists p n more, fields 47 t (p :: more) /\ numeral 65535 p (dec_value p) /\
  match more with [] => n = 0 | c :: _ => numeral u32_max c n end /\ gen ports (show_N (dec_value p) ++ maybe_param [c_slash] n 0).
Proof.
  intros t H. apply g_inv_cat in H. destruct H as [x [y [-> [H K]]]]. pose proof H as GA. apply PRfc.g_at_most in H. destruct H as (W & D & U).
  apply g_inv_opt in K. destruct K as [->|K].
  - rewrite app_nil_r. split; [exact W|]. exists x, 0, []. split; [apply fields_last, digits_47, D|]. split; [exact U|]. split; [reflexivity|].
    apply gen_cat; [apply g_again, GA|apply g_none].
  - apply g_inv_cat in K. destruct K as [u [w [-> [A B]]]]. apply g_inv_lit in A. subst u. pose proof B as GB. apply PRfc.g_at_most in B. destruct B as (W7 & D7 & U7).
    change (of_string "/" ++ w) with (47 :: w). split; [apply word_mid; [apply W|reflexivity|apply W7]|].
    exists x, (dec_value w), [w]. split; [apply fields_more; [apply digits_47, D|apply fields_last, digits_47, D7]|]. split; [exact U|]. split; [exact U7|].
    apply gen_cat; [apply g_again, GA|]. unfold maybe_param. destruct (dec_value w =? 0); [apply g_none|apply g_opt].
    apply (gen_cat _ _ (lit "/")); [apply gen_lit|apply g_again, GB].
Qed.
Lemma protocol_printed : forall t, gen (lits protocols) t -> word t /\ exists p, means_upper t (protocol_name p) /\ gen (lits protocols) (show_protocol_value p).
Proof.
  intros t H. apply g_protocol in H. destruct H as (W & p & M). split; [exact W|]. exists p. split; [exact M|].
  replace (show_protocol_value p) with (of_string (protocol_name p)) by (destruct p; reflexivity).
  apply g_lits_in. unfold protocols. destruct p; cbn; tauto.
Qed.
Lemma payload_printed : forall t, gen payload t -> gen payload (show_N (dec_value t)).
Proof.
  intros t T. apply g_inv_such in T. destruct T as [T P]. apply gen_such; [|rewrite PGram.dec_value_show; exact P].
  pose proof (g_number (dec_value t) (dec_value t) (N.le_refl _)) as G. apply g_inv_such in G. apply G.
Qed.
Lemma p_media : forall r t, r == cats [ Lit "m="; lits ["audio"; "video"]%string; Lit " "; ports; Lit " "; lits protocols;
  many1 (Cat (Lit " ") payload) ] -> gen r t -> retaken r "m" t.
Proof.
  intros r t Q H. rewrite (Q : r = _) in H. pieces H. pose proof G0 as GM. apply g_inv_lits in G0. destruct G0 as [w [M ->]].
  assert (K : exists k, media_name k = w /\ k <> Application).
  { cbn [In] in M. destruct M as [<-|[<-|[]]]; [exists Audio|exists Video]; split; reflexivity || discriminate. }
  destruct K as (k & <- & NA). apply ports_printed in G2. destruct G2 as (W2 & p & n & more & F2 & U2 & M2 & GP).
  apply protocol_printed in G4. destruct G4 as (W4 & pr & P4 & GR).
  apply (g_inv_leads1 32) in G5; [|reflexivity]. destruct G5 as (l & NE & F5 & ->).
  assert (FP : Forall (fun t => word t /\ numeral u32_max t (dec_value t) /\ payload_listed (dec_value t)) l).
  { eapply Forall_impl; [|exact F5]. intros t T. apply g_inv_such in T. destruct T as [T P]. apply g_inv_many1_chr in T. destruct T as [N F].
    split; [exact (digits_word t N F)|]. split; [|exact P]. apply digits_numeral; [exact N|exact F|]. destruct P as [P _]. unfold u32_max. lia. }
  assert (WP : Forall word l) by (eapply Forall_impl; [|exact FP]; cbv beta; tauto).
  assert (WK : word (of_string (media_name k))) by (destruct k; apply word_b; reflexivity).
  this ([109; 61] ++ of_string (media_name k) ++ leads 32 (x2 :: x4 :: l)).
  apply (retake _ (TyMedia {| ml_media := k; ml_port := dec_value p; ml_port_count := n; ml_proto := pr; ml_formats := Integers (map dec_value l) |}));
    [exact I| |].
  - exists (of_string (media_name k)), x2, x4, l. split; [apply words_leads; fa; assumption|]. split; [exact NE|].
    cbn [ml_media ml_port ml_port_count ml_proto ml_formats]. split; [destruct k; mns|]. split; [exists p, more; auto|]. split; [exact P4|].
    assert (Z : exists l', Integers (map dec_value l) = Integers l' /\ Forall2 (fun t n => numeral u32_max t n /\ payload_listed n) l l').
    { exists (map dec_value l). split; [reflexivity|]. clear -FP. induction FP as [|t l (_ & H) F IH]; [constructor|]. cbn [map]. constructor; assumption. }
    destruct k; [exact Z|exact Z|congruence].
  - rewrite (Q : r = _). line. unfold show_media_line. cbn [ml_media ml_port ml_port_count ml_proto ml_formats show_format_list].
    parts [lit "m="; of_string (media_name k); lit " "; show_N (dec_value p) ++ maybe_param [c_slash] n 0; lit " "; show_protocol_value pr;
      leads 32 (map show_N (map dec_value l))]; [exact GM|exact GP|exact GR| |].
    + destruct l as [|t l]; [congruence|]. inversion F5 as [|? ? T F']; subst. cbn [map]. apply g_leads1; [reflexivity|apply payload_printed, T|].
      clear -F'. induction F' as [|t l T F IH]; [constructor|]. cbn [map]. constructor; [apply payload_printed, T|exact IH].
    + replace (show_vec [] [] sp show_N (map dec_value l)) with (join [32] (map show_N (map dec_value l))).
      * rewrite spaced. destruct l as [|t l]; [congruence|]. cbn [map]. replace (show_media_value k) with (of_string (media_name k)) by (destruct k; reflexivity). flat.
      * symmetry. unfold sp. change c_space with 32. rewrite show_vec_words; [reflexivity|destruct l; [congruence|discriminate]|].
        clear. induction l as [|t l IH]; [constructor|]. cbn [map]. constructor; [|exact IH].
        apply (number_word (dec_value t)), g_number, N.le_refl.
Qed.
Lemma p_application : forall r t, r == cats [ Lit "m=application "; ports; Lit " "; lits protocols; many1 (Cat (Lit " ") token) ] -> gen r t -> retaken r "m" t.
Proof.
  intros r t Q H. rewrite (Q : r = _) in H. pieces H. apply ports_printed in G0. destruct G0 as (W2 & p & n & more & F2 & U2 & M2 & GP).
  apply protocol_printed in G2. destruct G2 as (W4 & pr & P4 & GR).
  apply (g_inv_leads1 32) in G3; [|reflexivity]. destruct G3 as (l & NE & FG & ->). pose proof (forall_word _ _ token_word FG) as F5.
  assert (WK : word (lit "application")) by (apply word_b; reflexivity).
  this ([109; 61] ++ lit "application" ++ leads 32 (x0 :: x2 :: l)).
  apply (retake _ (TyMedia {| ml_media := Application; ml_port := dec_value p; ml_port_count := n; ml_proto := pr; ml_formats := Strings l |}));
    [exact I| |].
  - exists (lit "application"), x0, x2, l. split; [apply words_leads; fa; assumption|]. split; [exact NE|].
    cbn [ml_media ml_port ml_port_count ml_proto ml_formats]. split; [mns|]. split; [exists p, more; auto|]. split; [exact P4|reflexivity].
  - rewrite (Q : r = _). line. unfold show_media_line. cbn [ml_media ml_port ml_port_count ml_proto ml_formats show_format_list].
    parts [lit "m=application "; show_N (dec_value p) ++ maybe_param [c_slash] n 0; lit " "; show_protocol_value pr; leads 32 l];
      [exact GP|exact GR| |].
    + destruct l as [|t l]; [congruence|]. inversion FG as [|? ? T F']; subst. apply g_leads1; [reflexivity|exact T|exact F'].
    + rewrite spaced. destruct l as [|t l]; [congruence|]. flat.
Qed.
Lemma lines_again : forall k r t, In (k, r) rfc_lines -> gen r t -> retaken r k t.
Proof.
  intros k r t M G. unfold rfc_lines in M. cbn [In] in M.
  destruct M as [M|[M|[M|[M|[M|[M|[M|[M|[M|[M|[]]]]]]]]]]]; injection M as <- Q.
  - rewrite <- Q in *. apply g_inv_lit in G. subst t. exact p_version.
  - exact (p_origin r t (eq_sym Q) G).
  - exact (p_session r t (eq_sym Q) G).
  - exact (p_timing r t (eq_sym Q) G).
  - exact (p_bandwidth r t (eq_sym Q) G).
  - exact (p_connection r t (eq_sym Q) G).
  - exact (p_connection4 r t (eq_sym Q) G).
  - exact (p_connection6 r t (eq_sym Q) G).
  - exact (p_media r t (eq_sym Q) G).
  - exact (p_application r t (eq_sym Q) G).
Qed.
End WithExt.

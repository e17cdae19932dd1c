(** * Lines of the RFCs are printed as lines of the RFCs (C80): attribute values of words and numbers *)
From Coq Require Import List Arith NArith ZArith Lia Bool Ascii String.
From Coq Require Import ZifyBool ZifyNat ZifyN.
From Verif Require Import Str Num Net Types Ext Show Address AttrParse Media Session SpecApi SpecDoc SpecVal SpecItems
  SpecPrint SpecIp SpecGrammar.
From Verif Require Import StrLemmas NumLemmas NetLemmas PVal PVal2 PVal8 PVal9 PVal10 PVal11 PPrint PPrint2 PPrint3 PPrint4
  PPrint9 PPrint11 PIp PIp2 PDoc3 PExt0 PGram.
From Verif Require Import SpecRfc PRfc PRfc2 PRfc3 PRfc4 PRfc9 PRfc16.
Import ListNotations.
Open Scope N_scope.
Open Scope list_scope.

(** ** Printed texts and the rules *)
Lemma g_number : forall max n, n <= max -> gen (at_most max) (show_N n).
Proof.
  intros max n L. apply PRfc9.g_at_most; [apply show_N_nonempty| |rewrite dec_value_show; exact L].
  pose proof (show_N_digits n) as D. rewrite forallb_forall in D. apply Forall_forall. intros c C.
  specialize (D c C). unfold Ext0.is_digit in D. lia.
Qed.
Lemma g_digits_row : forall w n, n < 10 ^ N.of_nat w -> (1 <= w)%nat -> gen (row 1 w (fun c => 48 <= c <= 57)) (show_N n).
Proof.
  intros w n L P. apply PRfc9.g_row.
  - pose proof (show_N_digits n) as D. rewrite forallb_forall in D. apply Forall_forall. intros c C.
    specialize (D c C). unfold Ext0.is_digit in D. lia.
  - pose proof (show_N_nonempty n) as Z. split; [destruct (show_N n); [congruence|cbn; lia]|apply show_N_short; assumption].
Qed.
Lemma at_most_value : forall max t, gen (at_most max) t -> dec_value t <= max.
Proof. intros max t H. apply g_inv_such in H. apply H. Qed.
Lemma g_again : forall max t, gen (at_most max) t -> gen (at_most max) (show_N (dec_value t)).
Proof. intros max t H. apply g_number, at_most_value, H. Qed.
Lemma recased_itself : forall w, recased (of_string w) (of_string w).
Proof. intro w. apply recased_refl_b. reflexivity. Qed.
Lemma g_nocase_itself : forall w, gen (nocase w) (of_string w).
Proof. intro w. apply g_nocase, recased_itself. Qed.
Lemma g_alt_in : forall a l r t, In r (a :: l) -> gen r t -> gen (alt a l) t.
Proof.
  intros a l r t M G. revert a M. induction l as [|b l IH]; intros a M; cbn [alt].
  - destruct M as [<-|[]]. exact G.
  - destruct M as [<-|M]; [apply gen_or_left, G|apply gen_or_right, IH, M].
Qed.
Lemma g_nocases_in : forall l w, In w l -> gen (nocases l) (of_string w).
Proof.
  intros [|x l] w M; [destruct M|]. cbn [nocases]. apply (g_alt_in _ _ (nocase w)); [|apply g_nocase_itself].
  destruct M as [<-|M]; [left; reflexivity|right; apply in_map, M].
Qed.
Lemma g_lits_in : forall l w, In w l -> gen (lits l) (of_string w).
Proof.
  intros [|x l] w M; [destruct M|]. cbn [lits]. apply (g_alt_in _ _ (Lit w)); [|apply gen_lit].
  destruct M as [<-|M]; [left; reflexivity|right; apply in_map, M].
Qed.
Lemma g_pieces : forall l ps t, Forall2 gen l ps -> t = List.concat ps -> gen (cats l) t.
Proof. intros l ps t F ->. apply g_cats, F. Qed.
Lemma filter_words : forall l, Forall word l -> filter non_empty l = l.
Proof.
  intros l F. induction F as [|t l [N _] F IH]; [reflexivity|]. cbn [filter]. destruct t; [congruence|]. cbn. rewrite IH. reflexivity.
Qed.
Lemma show_vec_words : forall {A} pre c (show : A -> str) l, l <> [] -> Forall word (map show l) ->
  show_vec pre [] [c] show l = pre ++ join [c] (map show l).
Proof. intros A pre c show l N F. unfold show_vec. destruct l; [congruence|]. rewrite (filter_words _ F), app_nil_r. reflexivity. Qed.
Lemma spaced : forall l, leads 32 l = match l with [] => [] | _ => 32 :: join [32] l end.
Proof. intros [|t l]; [reflexivity|]. rewrite join_leads. reflexivity. Qed.
Ltac flat := cbn [List.concat leads flat_map app]; repeat (rewrite <- app_assoc; cbn [app]); rewrite ?app_nil_r; reflexivity.
Ltac parts ps := apply (g_pieces _ ps); [repeat (apply Forall2_cons; [try apply gen_lit|]); [..|apply Forall2_nil]|].

Section WithExt.
Context {E : Ext}.
Definition again (r : abnf) (name : string) (v : str) : Prop :=
  exists a u, sdp_name a = name /\ not_image a /\ attr_value (trim_end v) a /\
    show_attr a = of_string name ++ 58 :: u /\ gen r u.
Definition again_of (nv : string * abnf) : Prop := forall v, gen (snd nv) v -> again (snd nv) (fst nv) v.
Lemma again_solid : forall r v a u, ends_solid v -> not_image a -> attr_value v a ->
  show_attr a = of_string (sdp_name a) ++ 58 :: u -> gen r u -> again r (sdp_name a) v.
Proof.
  intros r v a u S I V Q G. exists a, u. split; [reflexivity|]. split; [exact I|]. split; [|split; assumption].
  rewrite trim_end_id; [exact V|]. destruct S as [c [x [-> C]]]. exists x, c. auto.
Qed.
Lemma shown : forall t s, s <> [] -> attr_to_string t s = show_attr_type t ++ 58 :: s.
Proof. intros t s N. unfold attr_to_string. destruct s; [congruence|reflexivity]. Qed.
Ltac starting := let v := fresh "v" in let H := fresh "H" in intros v H; cbn [fst snd] in H |- *.
Lemma shown_word : forall t s, word s -> attr_to_string t s = show_attr_type t ++ 58 :: s.
Proof. intros t s W. apply shown, W. Qed.

Lemma a_word : forall r v a t, (attr_value v a <-> text_value v v) -> not_image a -> word v ->
  show_attr a = attr_to_string t v -> show_attr_type t = of_string (sdp_name a) -> gen r v -> again r (sdp_name a) v.
Proof.
  intros r v a t H I W Q K G. apply (again_solid _ _ a v); [apply word_ends, W|exact I| | |exact G].
  - apply H. split; [apply word_core, W|apply W].
  - rewrite Q, (shown_word _ _ W), K. reflexivity.
Qed.
Lemma a_number : forall r v max a t, (attr_value v a <-> number_value max v (dec_value v)) -> not_image a ->
  word v -> numeral max v (dec_value v) -> show_attr a = attr_to_string t (show_N (dec_value v)) ->
  show_attr_type t = of_string (sdp_name a) -> gen r (show_N (dec_value v)) -> again r (sdp_name a) v.
Proof.
  intros r v max a t H I W U Q K G. apply (again_solid _ _ a (show_N (dec_value v))); [apply word_ends, W|exact I| | |exact G].
  - apply H. exists v. split; [apply word_core, W|exact U].
  - rewrite Q, (shown _ _ (show_N_nonempty _)), K. reflexivity.
Qed.
Lemma a_ice_ufrag : again_of ("ice-ufrag"%string, row 4 256 ice_char).
Proof.
  starting. pose proof H as G. apply PRfc.g_row in H; [|lia].
  apply (a_word _ v (AIceUfrag v) TIceUfrag); [reflexivity|exact I| |reflexivity|reflexivity|exact G].
  exact (class_word _ _ ice_solid (proj1 H) (proj1 (proj2 H))).
Qed.
Lemma a_ice_pwd : again_of ("ice-pwd"%string, row 22 256 ice_char).
Proof.
  starting. pose proof H as G. apply PRfc.g_row in H; [|lia].
  apply (a_word _ v (AIcePwd v) TIcePwd); [reflexivity|exact I| |reflexivity|reflexivity|exact G].
  exact (class_word _ _ ice_solid (proj1 H) (proj1 (proj2 H))).
Qed.
Lemma a_mid : again_of ("mid"%string, token).
Proof. starting. apply (a_word _ v (AMid v) TMid); [reflexivity|exact I|apply token_word, H|reflexivity|reflexivity|exact H]. Qed.
Lemma a_label : again_of ("label"%string, token).
Proof. starting. apply (a_word _ v (ALabel v) TLabel); [reflexivity|exact I|apply token_word, H|reflexivity|reflexivity|exact H]. Qed.
Lemma a_identity : again_of ("identity"%string, vchars).
Proof. starting. apply (a_word _ v (AIdentity v) TIdentity); [reflexivity|exact I|apply vchars_word, H|reflexivity|reflexivity|exact H]. Qed.
Lemma a_ice_pacing : again_of ("ice-pacing"%string, row 1 10 (fun c => 48 <= c <= 57)).
Proof.
  starting. apply (g_digits _ _ 9999999999) in H; [|lia|reflexivity || (vm_compute; discriminate)].
  apply (a_number _ v 9999999999 (AIcePacing (dec_value v)) TIcePacing); [reflexivity|exact I|apply H|apply H|reflexivity|reflexivity|].
  apply (g_digits_row 10); [|lia]. destruct H as (_ & _ & ds & _ & _ & _ & Q & L). change (10 ^ N.of_nat 10) with 10000000000. lia.
Qed.
Lemma a_sctp_port : again_of ("sctp-port"%string, port).
Proof.
  starting. pose proof H as G. apply PRfc.g_at_most in H.
  apply (a_number _ v 65535 (ASctpPort (dec_value v)) TSctpPort); [reflexivity|exact I|apply H|apply H|reflexivity|reflexivity|apply g_again, G].
Qed.
Lemma a_max_message_size : again_of ("max-message-size"%string, at_most u64_max).
Proof.
  starting. pose proof H as G. apply PRfc.g_at_most in H.
  apply (a_number _ v u64_max (AMaxMessageSize (dec_value v)) TMaxMessageSize); [reflexivity|exact I|apply H|apply H|reflexivity|reflexivity|apply g_again, G].
Qed.
Lemma a_ptime : again_of ("ptime"%string, at_most u64_max).
Proof.
  starting. pose proof H as G. apply PRfc.g_at_most in H.
  apply (a_number _ v u64_max (APtime (dec_value v)) TPtime); [reflexivity|exact I|apply H|apply H|reflexivity|reflexivity|apply g_again, G].
Qed.
Lemma a_maxptime : again_of ("maxptime"%string, at_most u64_max).
Proof.
  starting. pose proof H as G. apply PRfc.g_at_most in H.
  apply (a_number _ v u64_max (AMaxPtime (dec_value v)) TMaxPtime); [reflexivity|exact I|apply H|apply H|reflexivity|reflexivity|apply g_again, G].
Qed.
Lemma words_shown : forall t x l, word x -> attr_to_string t (x ++ l) = show_attr_type t ++ 58 :: x ++ l.
Proof. intros t x l [N _]. apply shown. destruct x; [congruence|discriminate]. Qed.
Lemma a_ice_options : again_of ("ice-options"%string, list_of " " (many1 (Chr ice_char))).
Proof.
  starting. pose proof H as G. apply (g_inv_list 32) in H; [|reflexivity]. destruct H as [x [l [F ->]]].
  apply (forall_word _ _ ice_word) in F. inversion F as [|? ? W F']; subst.
  apply (again_solid _ _ (AIceOptions (x :: l)) (x ++ leads 32 l)); [apply ends_leads; assumption|exact I| | |exact G].
  - split; [apply words_leads; assumption|discriminate].
  - cbn [show_attr]. unfold sp. change c_space with 32. rewrite join_leads, (words_shown _ _ _ W). reflexivity.
Qed.
Lemma a_setup : again_of ("setup"%string, nocases ["active"; "passive"; "actpass"; "holdconn"]%string).
Proof.
  starting. apply g_inv_nocases in H. destruct H as [w [M R]].
  assert (K : exists x, setup_name x = w).
  { cbn in M. destruct M as [<-|[<-|[<-|[<-|[]]]]];
      [exists SetupActive|exists SetupPassive|exists SetupActpass|exists SetupHoldconn]; reflexivity. }
  destruct K as [x <-].
  assert (W : word v) by (apply (recased_is_word _ _ R); destruct x; reflexivity).
  apply (again_solid _ _ (ASetup x) (of_string (setup_name x))); [apply word_ends, W|exact I| | |apply g_nocases_in, M].
  - exists v. split; [apply word_core, W|]. apply recased_means, R.
  - destruct x; reflexivity.
Qed.
Lemma a_sctpmap : again_of ("sctpmap"%string, cats [port; Lit " "; nocase "webrtc-datachannel"; Lit " "; at_most u32_max]).
Proof.
  starting. pieces H. apply g_inv_nocase in G1.
  pose proof (recased_is_word _ _ G1 eq_refl) as W.
  apply number_word in G as W1. apply number_word in G3 as W3.
  match goal with |- again _ _ ?t => replace t with (x ++ leads 32 [x1; x3]) by flat end.
  apply (again_solid _ _ (ASctpmap {| sm_port := dec_value x; sm_channels := dec_value x3 |})
    (show_N (dec_value x) ++ lit " webrtc-datachannel " ++ show_N (dec_value x3))); [|exact I| | |].
  - apply ends_leads; fa; assumption.
  - exists x, x1, x3. split; [apply words_leads; fa; assumption|]. split; [apply number_read, G|].
    split; [apply recased_means, G1|apply number_read, G3].
  - cbn [show_attr]. unfold show_sctpmap. cbn [sm_port sm_channels]. apply shown.
    pose proof (show_N_nonempty (dec_value x)). destruct (show_N (dec_value x)); [congruence|discriminate].
  - parts [show_N (dec_value x); lit " "; of_string "webrtc-datachannel"; lit " "; show_N (dec_value x3)];
      [apply g_again, G|apply g_nocase_itself|apply g_again, G3|flat].
Qed.
Lemma a_group : again_of ("group"%string, rfc_group).
Proof.
  starting. apply g_inv_cat in H. destruct H as [x [y [-> [H K]]]]. apply (g_inv_leads 32) in K; [|reflexivity].
  destruct K as [l [FG ->]]. pose proof (forall_word _ _ token_word FG) as F.
  apply g_inv_nocases in H. destruct H as [w [M R]].
  assert (K : exists g, group_name g = w).
  { cbn in M. destruct M as [<-|[<-|[<-|[<-|[<-|[<-|[<-|[]]]]]]]];
      [exists GLs|exists GFid|exists GSrf|exists GAnat|exists GFec|exists GDdp|exists GBundle]; reflexivity. }
  destruct K as [g <-].
  assert (W : word x) by (apply (recased_is_word _ _ R); destruct g; reflexivity).
  apply (again_solid _ _ (AGroup {| grp_semantics := g; grp_tags := l |}) (of_string (group_name g) ++ leads 32 l));
    [apply ends_leads; assumption|exact I| | |].
  - exists x. split; [apply words_leads; assumption|apply recased_means_upper, R].
  - cbn [show_attr]. unfold show_group. cbn [grp_semantics grp_tags].
    replace (show_vec sp [] sp (fun s => s) l) with (leads 32 l).
    + rewrite shown by (destruct g; discriminate). destruct g; reflexivity.
    + destruct l as [|t l]; [reflexivity|]. unfold sp at 2. change c_space with 32. rewrite show_vec_words; [|discriminate|rewrite map_id; exact F].
      rewrite map_id, join_leads. reflexivity.
  - apply gen_cat; [apply g_nocases_in, M|apply g_leads; [reflexivity|exact FG]].
Qed.
Lemma a_ssrc_group : again_of ("ssrc-group"%string, rfc_ssrc_group).
Proof.
  starting. apply g_inv_cat in H. destruct H as [x [y [-> [H K]]]]. apply (g_inv_leads1 32) in K; [|reflexivity].
  destruct K as [l [N [F ->]]]. pose proof (forall_word _ _ (number_word _) F) as V.
  apply g_inv_nocases in H. destruct H as [w [M R]].
  assert (K : exists g, ssrc_group_name g = w).
  { cbn in M. destruct M as [<-|[<-|[<-|[<-|[<-|[]]]]]];
      [exists SgDup|exists SgFid|exists SgFec|exists SgFecFr|exists SgSim]; reflexivity. }
  destruct K as [g <-].
  assert (W : word x) by (apply (recased_is_word _ _ R); destruct g; reflexivity).
  set (ids := map (fun t => {| ssrc_id := dec_value t; ssrc_attribute := None; ssrc_value := None |}) l).
  assert (Q : map show_ssrc ids = map (fun t => show_N (dec_value t)) l).
  { unfold ids. rewrite map_map. apply map_ext. intro t. unfold show_ssrc. cbn [ssrc_id ssrc_attribute ssrc_value show_opt]. rewrite !app_nil_r. reflexivity. }
  apply (again_solid _ _ (ASsrcGroup g ids) (of_string (ssrc_group_name g) ++ leads 32 (map (fun t => show_N (dec_value t)) l)));
    [apply ends_leads; assumption|exact I| | |].
  - exists x, l. split; [apply words_leads; assumption|]. split; [apply recased_means_upper, R|]. split; [exact N|].
    unfold ids. clear -F. induction F as [|t l H F IH]; [constructor|]. cbn [map]. constructor; [|exact IH].
    cbn [ssrc_id ssrc_attribute ssrc_value]. split; [apply number_read, H|]. auto.
  - cbn [show_attr]. rewrite Q. rewrite shown by (destruct g; discriminate). destruct l as [|t l]; [congruence|]. cbn [map].
    unfold sp. change c_space with 32. rewrite join_leads. destruct g; cbn [of_string]; flat.
  - apply gen_cat; [apply g_nocases_in, M|]. destruct l as [|t l]; [congruence|]. cbn [map]. inversion F as [|? ? T F']; subst.
    apply g_leads1; [reflexivity|apply g_again, T|]. clear -F'. induction F' as [|t l T F IH]; [constructor|]. cbn [map].
    constructor; [apply g_again, T|exact IH].
Qed.
Lemma a_msid : again_of ("msid"%string, rfc_msid).
Proof.
  starting. pose proof H as G. apply g_inv_cat in H. destruct H as [x [y [-> [H K]]]]. apply row_token_word in H.
  apply g_inv_opt in K. destruct K as [->|K].
  - rewrite app_nil_r in *. apply (again_solid _ _ (AMsid {| msid_id := x; msid_appdata := None |}) x); [apply word_ends, H|exact I| | |exact G].
    + exists []. split; [apply words_one, H|reflexivity].
    + cbn [show_attr]. unfold show_msid. cbn [msid_id msid_appdata show_opt]. rewrite app_nil_r. apply (shown_word TMsid _ H).
  - apply g_inv_cat in K. destruct K as [u [w [-> [K V]]]]. apply g_inv_lit in K. subst u. apply row_token_word in V.
    match goal with |- again ?r ?n ?t => change (again r n (x ++ 32 :: w)); change t with (x ++ 32 :: w) in G end.
    apply (again_solid _ _ (AMsid {| msid_id := x; msid_appdata := Some w |}) (x ++ 32 :: w)); [apply ends_app, ends_cons, word_ends, V|exact I| | |exact G].
    + exists [w]. split; [|reflexivity]. replace (x ++ 32 :: w) with (x ++ leads 32 [w]) by flat. apply words_leads; fa; assumption.
    + cbn [show_attr]. unfold show_msid. cbn [msid_id msid_appdata show_opt]. rewrite app_nil_r. apply (words_shown TMsid x _ H).
Qed.
Lemma a_msid_semantic : again_of ("msid-semantic"%string, rfc_msid_semantic).
Proof.
  starting. pieces H. pose proof G0 as T0. apply token_word in G0. apply (g_inv_leads 32) in G1; [|reflexivity].
  destruct G1 as [l [FG ->]]. pose proof (forall_word _ _ token_word FG) as F.
  set (u := x0 ++ 32 :: match l with [] => lit "*" | _ => join [32] l end).
  assert (S : show_attr (AMsidSemantic {| ms_semantic := x0; ms_msids := l |}) = of_string "msid-semantic" ++ 58 :: u).
  { cbn [show_attr]. unfold show_msid_semantic. cbn [ms_semantic ms_msids]. unfold u, sp. change c_space with 32. cbn [app].
    rewrite (words_shown _ x0 _ G0). destruct l; reflexivity. }
  assert (GU : gen rfc_msid_semantic u).
  { unfold u. parts [@nil N; x0; 32 :: match l with [] => lit "*" | _ => join [32] l end]; [apply g_none|exact T0| |flat].
    destruct l as [|t l].
    - change (32 :: lit "*") with (leads 32 [lit "*"]). apply g_leads; [reflexivity|]. constructor; [|constructor].
      apply PRfc9.g_many1; [discriminate|]. constructor; [unfold token_char; lia|constructor].
    - rewrite join_leads. change (32 :: t ++ leads 32 l) with (leads 32 (t :: l)). apply g_leads; [reflexivity|exact FG]. }
  apply g_inv_opt in G. destruct G as [->|G]; [|apply g_inv_lit in G; subst x].
  - match goal with |- again _ _ ?t => replace t with (x0 ++ leads 32 l) by flat end.
    apply (again_solid _ _ (AMsidSemantic {| ms_semantic := x0; ms_msids := l |}) u); [apply ends_leads; fa; assumption|exact I| |exact S|exact GU].
    apply words_leads; assumption.
  - match goal with |- again _ _ ?t => replace t with ([32] ++ x0 ++ leads 32 l) by flat end.
    apply (again_solid _ _ (AMsidSemantic {| ms_semantic := x0; ms_msids := l |}) u); [apply ends_app, ends_leads; fa; assumption|exact I| |exact S|exact GU].
    cbn [attr_value]. unfold msid_semantic_value. cbn [ms_semantic ms_msids].
    apply words_sws. pose proof (words_leads x0 l G0 F) as V. apply words_sws in V. rewrite <- V. reflexivity.
Qed.
Lemma a_dtls_message : again_of ("dtls-message"%string, cats [lits ["client"; "server"]%string; Lit " "; vchars]).
Proof.
  starting. pose proof H as GG. pieces H. apply g_vchars in G1. destruct G1 as (W1 & F1). apply g_inv_lits in G. destruct G as [w [M ->]].
  assert (S1 : ~ In 32 x1) by (apply (class_no _ _ _ F1); unfold vchar; lia).
  match goal with |- again _ _ ?t => replace t with (of_string w ++ 32 :: x1) in * by flat end.
  assert (C : core (of_string w ++ 32 :: x1) (of_string w ++ 32 :: x1)).
  { apply core_self; [apply starts_app, word_starts|apply ends_app, ends_cons, word_ends, W1].
    cbn in M. destruct M as [<-|[<-|[]]]; apply word_b; reflexivity. }
  cbn in M. destruct M as [<-|[<-|[]]].
  - apply (again_solid _ _ (ADtlsMessage (DtlsClient x1)) (lit "client " ++ x1)); [apply ends_app, ends_cons, word_ends, W1|exact I| |reflexivity|exact GG].
    eexists. exists (lit "client"), x1. split; [exact C|]. split; [|left; split; reflexivity].
    apply fields_more; [apply not_in_b; reflexivity|]. apply fields_last. exact S1.
  - apply (again_solid _ _ (ADtlsMessage (DtlsServer x1)) (lit "server " ++ x1)); [apply ends_app, ends_cons, word_ends, W1|exact I| |reflexivity|exact GG].
    eexists. exists (lit "server"), x1. split; [exact C|]. split; [|right; split; reflexivity].
    apply fields_more; [apply not_in_b; reflexivity|]. apply fields_last. exact S1.
Qed.
Lemma a_rtpmap : again_of ("rtpmap"%string, rfc_rtpmap).
Proof.
  starting. pieces H. pose proof G as GA. pose proof G1 as GB. pose proof G3 as GC. apply PRfc.g_at_most in G. destruct G as (W & _ & U).
  apply g_token in G1. destruct G1 as (W1 & F1). apply PRfc.g_at_most in G3. destruct G3 as (W3 & D3 & U3).
  assert (S1 : ~ In 47 x1) by (apply (class_no _ _ _ F1); unfold token_char; lia).
  assert (S3 : ~ In 47 x3) by (apply (class_no _ _ _ D3); unfold is_digit; lia).
  assert (K : exists ch rest codec, (x1 ++ 47 :: x3 ++ x4) = codec /\ word codec /\ fields 47 codec (x1 :: x3 :: rest) /\
    match rest with [] => ch = None | c :: _ => exists n, ch = Some n /\ numeral u32_max c n end /\
    gen (opt (Cat (Lit "/") (at_most u32_max))) (show_opt [c_slash] show_N [] ch)).
  { apply g_inv_opt in G4. destruct G4 as [->|G4].
    - exists None, []. eexists. split; [reflexivity|]. rewrite app_nil_r. split; [apply word_mid; [apply W1|reflexivity|apply W3]|].
      split; [|split; [reflexivity|apply g_none]]. apply fields_more; [exact S1|]. apply fields_last. exact S3.
    - apply g_inv_cat in G4. destruct G4 as [u [w [-> [G4 V]]]]. apply g_inv_lit in G4. subst u. pose proof V as GV.
      apply PRfc.g_at_most in V. destruct V as (W4 & D4 & U4). exists (Some (dec_value w)), [w]. eexists. split; [reflexivity|].
      change (of_string "/" ++ w) with (47 :: w). split.
      + apply word_mid; [apply W1|reflexivity|]. apply Forall_app. split; [apply W3|]. constructor; [reflexivity|apply W4].
      + split; [|split; [eauto|]].
        * apply fields_more; [exact S1|]. apply fields_more; [exact S3|]. apply fields_last.
          apply (class_no _ _ _ D4). unfold is_digit. lia.
        * cbn [show_opt]. rewrite app_nil_r. apply g_opt. apply (gen_cat _ _ (lit "/")); [apply gen_lit|apply g_again, GV]. }
  destruct K as (ch & rest & codec & C & WC & FC & R & GO).
  match goal with |- again _ _ ?t => replace t with (x ++ leads 32 [codec])
    by (rewrite <- C; cbn [List.concat leads flat_map app]; rewrite ?app_nil_r; reflexivity) end.
  apply (again_solid _ _ (ARtpmap {| rm_payload_type := dec_value x; rm_codec_name := x1; rm_frequency := dec_value x3; rm_channels := ch |})
    (show_N (dec_value x) ++ 32 :: x1 ++ 47 :: show_N (dec_value x3) ++ show_opt [c_slash] show_N [] ch));
    [apply ends_leads; fa; assumption|exact I| | |].
  - exists x, codec, [], x3, rest. split; [apply words_leads; fa; assumption|]. cbn [rm_payload_type rm_codec_name rm_frequency rm_channels].
    split; [exact U|]. split; [exact FC|]. split; [exact U3|exact R].
  - cbn [show_attr]. unfold show_rtpmap. cbn [rm_payload_type rm_codec_name rm_frequency rm_channels]. apply shown.
    pose proof (show_N_nonempty (dec_value x)). destruct (show_N (dec_value x)); [congruence|discriminate].
  - parts [show_N (dec_value x); lit " "; x1; lit "/"; show_N (dec_value x3); show_opt [c_slash] show_N [] ch];
      [apply g_again, GA|exact GB|apply g_again, GC|exact GO|flat].
Qed.
Lemma a_extmap : again_of ("extmap"%string, rfc_extmap).
Proof.
  starting. pieces H. pose proof G as GA. pose proof G2 as GB. pose proof G3 as GC.
  apply PRfc.g_at_most in G. destruct G as (W & D & U). apply g_non_ws in G2. destruct G2 as (W2 & _).
  assert (SL : ~ In 47 x) by (apply (class_no _ _ _ D); unfold is_digit; lia).
  assert (K : exists more, x3 = leads 32 more /\ Forall word more /\ Forall (fun w => ~ In 0 w) more).
  { apply g_inv_opt in G3. destruct G3 as [->|G3]; [exists []; repeat split; constructor|].
    apply g_inv_cat in G3. destruct G3 as [u [w [-> [G3 V]]]]. apply g_inv_lit in G3. subst u.
    apply (g_inv_list 32) in V; [|reflexivity]. destruct V as [a [l [F ->]]]. exists (a :: l).
    split; [reflexivity|]. split; (eapply Forall_impl; [|exact F]); intros t T; apply g_non_ws in T; [apply T|].
    apply (class_no _ _ _ (proj2 T)). lia. }
  destruct K as (more & -> & WM & ZM).
  assert (K : exists id dir, (x ++ x0) = id /\ word id /\ match dir with None => ~ In 47 id /\ numeral u16_max id (dec_value x)
    | Some d => exists a b, cut 47 id a b /\ numeral u16_max a (dec_value x) /\ means b (direction_name d) end /\
    gen (opt (Cat (Lit "/") (nocases ["sendonly"; "recvonly"; "sendrecv"]%string))) (show_opt [c_slash] show_direction [] dir)).
  { apply g_inv_opt in G0. destruct G0 as [->|G0].
    - exists x, None. rewrite app_nil_r. split; [reflexivity|]. split; [exact W|]. split; [auto|apply g_none].
    - apply g_inv_cat in G0. destruct G0 as [u [w [-> [G0 V]]]]. apply g_inv_lit in G0. subst u.
      apply (g_inv_nocases ["sendonly"; "recvonly"; "sendrecv"]%string) in V. destruct V as [k [M R]].
      assert (K : exists d, direction_name d = k).
      { cbn in M. destruct M as [<-|[<-|[<-|[]]]]; [exists DSendonly|exists DRecvonly|exists DSendrecv]; reflexivity. }
      destruct K as [d <-].
      assert (V : word w) by (apply (recased_is_word _ _ R); destruct d; reflexivity).
      exists (x ++ 47 :: w), (Some d). split; [reflexivity|]. split; [apply word_mid; [apply W|reflexivity|apply V]|]. split.
      + exists x, w. split; [split; [reflexivity|exact SL]|]. split; [exact U|]. apply recased_means, R.
      + replace (show_opt [c_slash] show_direction [] (Some d)) with (lit "/" ++ of_string (direction_name d)) by (destruct d; reflexivity).
        apply g_opt. apply (gen_cat _ _ (lit "/")); [apply gen_lit|apply g_nocases_in, M]. }
  destruct K as (id & dir & C & WI & DI & GO).
  match goal with |- again _ _ ?t => replace t with (id ++ leads 32 (x2 :: more))
    by (rewrite <- C; cbn [List.concat leads flat_map app]; repeat (rewrite <- app_assoc; cbn [app]); rewrite ?app_nil_r; reflexivity) end.
  apply (again_solid _ _ (AExtmap {| ext_id := dec_value x; ext_direction := dir; ext_url := x2;
    ext_attributes := match more with [] => None | _ => Some (join [32] more) end |})
    (show_N (dec_value x) ++ show_opt [c_slash] show_direction [] dir ++ 32 :: x2 ++ leads 32 more));
    [apply ends_leads; fa; assumption|exact I| | |].
  - exists id, x2, more. cbn [ext_id ext_direction ext_url ext_attributes].
    split; [apply words_leads; fa; assumption|]. split; [reflexivity|]. split; [exact DI|]. destruct more; [reflexivity|]. auto.
  - cbn [show_attr]. unfold show_extmap. cbn [ext_id ext_direction ext_url ext_attributes].
    replace (show_opt sp (fun s => s) [] match more with [] => None | _ => Some (join [32] more) end) with (leads 32 more).
    + apply shown. pose proof (show_N_nonempty (dec_value x)). destruct (show_N (dec_value x)); [congruence|discriminate].
    + rewrite spaced. destruct more; [reflexivity|]. cbn [show_opt]. rewrite app_nil_r. reflexivity.
  - parts [show_N (dec_value x); show_opt [c_slash] show_direction [] dir; lit " "; x2; leads 32 more];
      [apply g_again, GA|exact GO|exact GB|exact GC|flat].
Qed.
End WithExt.

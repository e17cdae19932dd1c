(** * The lines of the RFCs are accepted (C62): attribute values with fields *)
From Coq Require Import List Arith NArith ZArith Lia Bool Ascii String.
From Coq Require Import ZifyBool ZifyNat ZifyN.
From Verif Require Import Str Num Net Types Ext Show Address AttrParse Media Session SpecApi SpecDoc SpecVal SpecItems
  SpecPrint SpecIp SpecGrammar.
From Verif Require Import StrLemmas NumLemmas NetLemmas PVal PVal2 PVal8 PVal9 PVal10 PVal11 PPrint PPrint2 PPrint3 PPrint4
  PPrint9 PPrint11 PIp PIp2 PDoc3.
From Verif Require Import SpecRfc PRfc.
Import ListNotations.
Open Scope N_scope.
Open Scope list_scope.

Section WithExt.
Context {E : Ext}.
Lemma words_one : forall t, word t -> words t [t].
Proof. intros t W. rewrite <- (app_nil_r t) at 1. apply (words_leads t []); [exact W|constructor]. Qed.

Lemma r_group : names_of ("group"%string, rfc_group).
Proof.
  start. apply g_inv_cat in H. destruct H as [x [y [-> [H K]]]]. apply (g_inv_leads 32) in K; [|reflexivity].
  destruct K as [l [F ->]]. apply (forall_word _ _ token_word) in F.
  apply g_inv_nocases in H. destruct H as [w [M R]].
  assert (K : exists g, group_name g = w).
  { cbn in M. destruct M as [<-|[<-|[<-|[<-|[<-|[<-|[<-|[]]]]]]]];
      [exists GLs|exists GFid|exists GSrf|exists GAnat|exists GFec|exists GDdp|exists GBundle]; reflexivity. }
  destruct K as [g <-].
  assert (W : word x) by (apply (recased_is_word _ _ R); destruct g; reflexivity).
  apply (read_solid _ (AGroup {| grp_semantics := g; grp_tags := l |})); [apply ends_leads; assumption|exact I|].
  exists x. split; [apply words_leads; assumption|apply recased_means_upper, R].
Qed.
Lemma r_ssrc_group : names_of ("ssrc-group"%string, rfc_ssrc_group).
Proof.
  start. apply g_inv_cat in H. destruct H as [x [y [-> [H K]]]]. apply (g_inv_leads1 32) in K; [|reflexivity].
  destruct K as [l [N [F ->]]]. pose proof (forall_word _ _ (number_word _) F) as V.
  apply g_inv_nocases in H. destruct H as [w [M R]].
  assert (K : exists g, ssrc_group_name g = w).
  { cbn in M. destruct M as [<-|[<-|[<-|[<-|[<-|[]]]]]];
      [exists SgDup|exists SgFid|exists SgFec|exists SgFecFr|exists SgSim]; reflexivity. }
  destruct K as [g <-].
  assert (W : word x) by (apply (recased_is_word _ _ R); destruct g; reflexivity).
  apply (read_solid _ (ASsrcGroup g (map (fun t => {| ssrc_id := dec_value t; ssrc_attribute := None; ssrc_value := None |}) l)));
    [apply ends_leads; assumption|exact I|].
  exists x, l. split; [apply words_leads; assumption|]. split; [apply recased_means_upper, R|]. split; [exact N|].
  clear -F. induction F as [|t l H F IH]; [constructor|]. cbn [map]. constructor; [|exact IH].
  cbn [ssrc_id ssrc_attribute ssrc_value]. split; [apply number_read, H|]. auto.
Qed.
Lemma row_token_word : forall m t, gen (row 1 m token_char) t -> word t.
Proof. intros m t H. apply g_row in H; [|lia]. exact (class_word _ _ token_solid (proj1 H) (proj1 (proj2 H))). Qed.
Lemma r_msid : names_of ("msid"%string, rfc_msid).
Proof.
  start. apply g_inv_cat in H. destruct H as [x [y [-> [H K]]]]. apply row_token_word in H.
  apply g_inv_opt in K. destruct K as [->|K].
  - rewrite app_nil_r. apply (read_solid _ (AMsid {| msid_id := x; msid_appdata := None |})); [apply word_ends, H|exact I|].
    exists []. split; [apply words_one, H|reflexivity].
  - apply g_inv_cat in K. destruct K as [u [w [-> [K V]]]]. apply g_inv_lit in K. subst u. apply row_token_word in V.
    text (x ++ leads 32 [w]).
    apply (read_solid _ (AMsid {| msid_id := x; msid_appdata := Some w |})); [apply ends_leads; fa; assumption|exact I|].
    exists [w]. split; [apply words_leads; fa; assumption|reflexivity].
Qed.
Lemma r_msid_semantic : names_of ("msid-semantic"%string, rfc_msid_semantic).
Proof.
  start. pieces H. apply token_word in G0. apply (g_inv_leads 32) in G1; [|reflexivity].
  destruct G1 as [l [F ->]]. apply (forall_word _ _ token_word) in F.
  apply g_inv_opt in G. destruct G as [->|G]; [|apply g_inv_lit in G; subst x].
  - text (x0 ++ leads 32 l).
    apply (read_solid _ (AMsidSemantic {| ms_semantic := x0; ms_msids := l |})); [apply ends_leads; fa; assumption|exact I|].
    apply words_leads; assumption.
  - text ([32] ++ x0 ++ leads 32 l).
    apply (read_solid _ (AMsidSemantic {| ms_semantic := x0; ms_msids := l |})); [apply ends_app, ends_leads; fa; assumption|exact I|].
    cbn [attr_value]. unfold msid_semantic_value. cbn [ms_semantic ms_msids].
    apply words_sws. pose proof (words_leads x0 l G0 F) as V. apply words_sws in V. rewrite <- V. reflexivity.
Qed.
Lemma digits_fields : forall c t rest l, Forall is_digit t -> ~ is_digit c -> fields c rest l -> fields c (t ++ c :: rest) (t :: l).
Proof. intros c t rest l F D K. apply fields_more; [exact (digits_no _ _ F D)|exact K]. Qed.
Lemma class_no : forall (P : N -> Prop) c t, Forall P t -> ~ P c -> ~ In c t.
Proof. intros P c t F D J. rewrite Forall_forall in F. exact (D (F _ J)). Qed.
Lemma word_mid : forall a c b, Forall (fun x => is_ws x = false) a -> is_ws c = false -> Forall (fun x => is_ws x = false) b -> word (a ++ c :: b).
Proof.
  intros a c b A C B. split; [destruct a; discriminate|]. apply Forall_app. split; [exact A|]. constructor; assumption.
Qed.
Lemma r_rtpmap : names_of ("rtpmap"%string, rfc_rtpmap).
Proof.
  start. pieces H. apply g_at_most in G. destruct G as (W & _ & U).
  apply g_token in G1. destruct G1 as (W1 & F1). apply g_at_most in G3. destruct G3 as (W3 & D3 & U3).
  assert (S1 : ~ In 47 x1) by (apply (class_no _ _ _ F1); unfold token_char; lia).
  assert (S3 : ~ In 47 x3) by (apply (class_no _ _ _ D3); unfold is_digit; lia).
  assert (K : exists ch rest codec, (x1 ++ 47 :: x3 ++ x4) = codec /\ word codec /\ fields 47 codec (x1 :: x3 :: rest) /\
    match rest with [] => ch = None | c :: _ => exists n, ch = Some n /\ numeral u32_max c n end).
  { apply g_inv_opt in G4. destruct G4 as [->|G4].
    - exists None, []. eexists. split; [reflexivity|]. rewrite app_nil_r. split; [apply word_mid; [apply W1|reflexivity|apply W3]|].
      split; [|reflexivity]. apply fields_more; [exact S1|]. apply fields_last. exact S3.
    - apply g_inv_cat in G4. destruct G4 as [u [w [-> [G4 V]]]]. apply g_inv_lit in G4. subst u.
      apply g_at_most in V. destruct V as (W4 & D4 & U4). exists (Some (dec_value w)), [w]. eexists. split; [reflexivity|].
      change (of_string "/" ++ w) with (47 :: w). split.
      + apply word_mid; [apply W1|reflexivity|]. apply Forall_app. split; [apply W3|]. constructor; [reflexivity|apply W4].
      + split; [|eauto]. apply fields_more; [exact S1|]. apply fields_more; [exact S3|]. apply fields_last.
        apply (class_no _ _ _ D4). unfold is_digit. lia. }
  destruct K as (ch & rest & codec & C & WC & FC & R).
  replace (List.concat [x; of_string " "; x1; of_string "/"; x3; x4]) with (x ++ leads 32 [codec])
    by (rewrite <- C; cbn [List.concat leads flat_map app]; rewrite ?app_nil_r; reflexivity).
  apply (read_solid _ (ARtpmap {| rm_payload_type := dec_value x; rm_codec_name := x1; rm_frequency := dec_value x3; rm_channels := ch |}));
    [apply ends_leads; fa; assumption|exact I|].
  exists x, codec, [], x3, rest. split; [apply words_leads; fa; assumption|]. cbn [rm_payload_type rm_codec_name rm_frequency rm_channels].
  split; [exact U|]. split; [exact FC|]. split; [exact U3|exact R].
Qed.
Lemma r_extmap : names_of ("extmap"%string, rfc_extmap).
Proof.
  start. pieces H. apply g_at_most in G. destruct G as (W & D & U). apply g_non_ws in G2. destruct G2 as (W2 & _).
  assert (SL : ~ In 47 x) by (apply (class_no _ _ _ D); unfold is_digit; lia).
  assert (K : exists more, x3 = leads 32 more /\ Forall word more /\ Forall (fun w => ~ In 0 w) more).
  { apply g_inv_opt in G3. destruct G3 as [->|G3]; [exists []; repeat split; constructor|].
    apply g_inv_cat in G3. destruct G3 as [u [w [-> [G3 V]]]]. apply g_inv_lit in G3. subst u.
    apply (g_inv_list 32) in V; [|reflexivity]. destruct V as [a [l [F ->]]]. exists (a :: l).
    split; [reflexivity|]. split; (eapply Forall_impl; [|exact F]); intros t T; apply g_non_ws in T; [apply T|].
    apply (class_no _ _ _ (proj2 T)). lia. }
  destruct K as (more & -> & WM & ZM).
  assert (K : exists id dir, (x ++ x0) = id /\ word id /\ match dir with None => ~ In 47 id /\ numeral u16_max id (dec_value x)
    | Some d => exists a b, cut 47 id a b /\ numeral u16_max a (dec_value x) /\ means b (direction_name d) end).
  { apply g_inv_opt in G0. destruct G0 as [->|G0].
    - exists x, None. rewrite app_nil_r. auto.
    - apply g_inv_cat in G0. destruct G0 as [u [w [-> [G0 V]]]]. apply g_inv_lit in G0. subst u.
      apply (g_inv_nocases ["sendonly"; "recvonly"; "sendrecv"]%string) in V. destruct V as [k [M R]].
      assert (K : exists d, direction_name d = k).
      { cbn in M. destruct M as [<-|[<-|[<-|[]]]]; [exists DSendonly|exists DRecvonly|exists DSendrecv]; reflexivity. }
      destruct K as [d <-].
      assert (V : word w) by (apply (recased_is_word _ _ R); destruct d; reflexivity).
      exists (x ++ 47 :: w), (Some d). split; [reflexivity|]. split; [apply word_mid; [apply W|reflexivity|apply V]|].
      exists x, w. split; [split; [reflexivity|exact SL]|]. split; [exact U|]. apply recased_means, R. }
  destruct K as (id & dir & C & WI & DI).
  replace (List.concat [x; x0; of_string " "; x2; leads 32 more]) with (id ++ leads 32 (x2 :: more))
    by (rewrite <- C; cbn [List.concat leads flat_map app]; repeat (rewrite <- app_assoc; cbn [app]); rewrite ?app_nil_r; reflexivity).
  apply (read_solid _ (AExtmap {| ext_id := dec_value x; ext_direction := dir; ext_url := x2;
    ext_attributes := match more with [] => None | _ => Some (join [32] more) end |}));
    [apply ends_leads; fa; assumption|exact I|].
  exists id, x2, more. cbn [ext_id ext_direction ext_url ext_attributes].
  split; [apply words_leads; fa; assumption|]. split; [reflexivity|]. split; [exact DI|]. destruct more; [reflexivity|]. auto.
Qed.
Lemma r_dtls_message : names_of ("dtls-message"%string, cats [lits ["client"; "server"]%string; Lit " "; vchars]).
Proof.
  start. pieces H. apply g_vchars in G1. destruct G1 as (W1 & F1). apply g_inv_lits in G. destruct G as [w [M ->]].
  assert (S1 : ~ In 32 x1) by (apply (class_no _ _ _ F1); unfold vchar; lia).
  text (of_string w ++ 32 :: x1).
  assert (C : core (of_string w ++ 32 :: x1) (of_string w ++ 32 :: x1)).
  { apply core_self; [apply starts_app, word_starts|apply ends_app, ends_cons, word_ends, W1].
    cbn in M. destruct M as [<-|[<-|[]]]; apply word_b; reflexivity. }
  cbn in M. destruct M as [<-|[<-|[]]].
  - apply (read_solid _ (ADtlsMessage (DtlsClient x1))); [apply ends_app, ends_cons, word_ends, W1|exact I|].
    eexists. exists (lit "client"), x1. split; [exact C|]. split; [|left; split; reflexivity].
    apply fields_more; [apply not_in_b; reflexivity|]. apply fields_last. exact S1.
  - apply (read_solid _ (ADtlsMessage (DtlsServer x1))); [apply ends_app, ends_cons, word_ends, W1|exact I|].
    eexists. exists (lit "server"), x1. split; [exact C|]. split; [|right; split; reflexivity].
    apply fields_more; [apply not_in_b; reflexivity|]. apply fields_last. exact S1.
Qed.
Lemma r_ssrc : names_of ("ssrc"%string, rfc_ssrc).
Proof.
  start. pieces H. apply g_at_most in G. destruct G as (W & D & U). apply g_token in G1. destruct G1 as (W1 & F1).
  assert (S1 : ~ In 58 x1) by (apply (class_no _ _ _ F1); unfold token_char; lia).
  assert (S0 : ~ In 32 x) by (apply (class_no _ _ _ D); unfold is_digit; lia).
  apply g_inv_opt in G2. destruct G2 as [->|G2].
  - text (x ++ 32 :: x1).
    apply (read_solid _ (ASsrc {| ssrc_id := dec_value x; ssrc_attribute := Some x1; ssrc_value := None |}));
      [apply ends_app, ends_cons, word_ends, W1|exact I|].
    eexists. split; [apply core_self; [apply starts_app, word_starts, W|apply ends_app, ends_cons, word_ends, W1]|].
    right. exists x, x1. split; [split; [reflexivity|exact S0]|]. auto.
  - apply g_inv_cat in G2. destruct G2 as [u [w [-> [G2 V]]]]. apply g_inv_lit in G2. subst u.
    text ((x ++ 32 :: x1) ++ 58 :: w).
    exists (ASsrc {| ssrc_id := dec_value x; ssrc_attribute := Some x1; ssrc_value := Some (trim_end w) |}).
    split; [reflexivity|]. split; [exact I|]. rewrite trim_end_mid by reflexivity.
    eexists. split; [apply core_self|].
    + apply starts_app, starts_app, word_starts, W.
    + destruct (trim_end_cases w) as [T|T].
      * rewrite T. apply ends_app. exists 58, []. split; reflexivity.
      * apply ends_app, ends_cons. destruct T as [y [c [-> C]]]. exists c, y. auto.
    + right. exists x, (x1 ++ 58 :: trim_end w). split; [split; [rewrite <- app_assoc; reflexivity|exact S0]|]. split; [exact U|].
      right. exists x1, (trim_end w). split; [split; [reflexivity|exact S1]|]. auto.
Qed.
End WithExt.

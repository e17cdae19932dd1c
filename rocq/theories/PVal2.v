(** * The line parsers and the simple attribute parsers against the grammars of
    SpecVal.v (proofs only) *)
From Coq Require Import List NArith ZArith Bool Ascii String Lia.
From Coq Require Import ZifyBool ZifyNat ZifyN.
From Verif Require Import Str Num Net Types Ext Show Address AttrParse Media Session.
From Verif Require Import StrLemmas NumLemmas NetLemmas.
From Verif Require Import SpecApi SpecDoc SpecVal PVal.
Import ListNotations.
Open Scope N_scope.
Open Scope list_scope.

Ltac okb H x Hx := apply bind_ok in H; destruct H as (x & Hx & H).
Ltac oka H := repeat (apply bind_ok in H; destruct H as (? & ? & H)).

Section WithExt.
Context {E : Ext}.

(** ** Primitives *)
Lemma p_u8_iff : forall s n, p_u8 s = Ok n <-> numeral u8_max s n.
Proof. intros. unfold p_u8, parse_u8. rewrite map_err_ok, numeral_iff. reflexivity. Qed.
Lemma p_u16_iff : forall s n, p_u16 s = Ok n <-> numeral u16_max s n.
Proof. intros. unfold p_u16, parse_u16. rewrite map_err_ok, numeral_iff. reflexivity. Qed.
Lemma p_u32_iff : forall s n, p_u32 s = Ok n <-> numeral u32_max s n.
Proof. intros. unfold p_u32, parse_u32. rewrite map_err_ok, numeral_iff. reflexivity. Qed.
Lemma p_u64_iff : forall s n, p_u64 s = Ok n <-> numeral u64_max s n.
Proof. intros. unfold p_u64, parse_u64. rewrite map_err_ok, numeral_iff. reflexivity. Qed.
Lemma p_f32_iff : forall s x, p_f32 s = Ok x <-> parse_f32 s = Ok x.
Proof. intros. apply map_err_ok. Qed.
Lemma p_f64_iff : forall s x, p_f64 s = Ok x <-> parse_f64 s = Ok x.
Proof. intros. apply map_err_ok. Qed.

Lemma address_iff : forall s a, address_from_str s = Ok a <-> reads_address s a.
Proof.
  intros s a. unfold address_from_str, reads_address.
  assert (F : forall e, match host_parse s with
     | Ok h => Ok (address_from_host h) | Err m => Err (e m) | Panic => Panic end = Ok (E:=ierr) a
     <-> exists h, host_parse s = Ok h /\ a = host_address h).
  { intro e. destruct (host_parse s) as [h|m|]; split; intro H; try discriminate;
      try (destruct H as (h' & H & _); discriminate).
    - inv H. exists h. split; [reflexivity | destruct h; reflexivity].
    - destruct H as (h' & H & ->). inv H. destruct h'; reflexivity. }
  destruct (contains c_colon s) eqn:C.
  - apply contains_In in C. destruct (parse_ip s) as [i|].
    + split.
      * intro H. inv H. left. split; [exact C | exists i; auto].
      * intros [[_ (i' & H & ->)] | [H _]]; [inv H; reflexivity | exfalso; apply H; eauto].
    + rewrite (F (fun _ => EIpAddress)). split.
      * intro H. right. split; [intros [_ (i & X)]; discriminate | exact H].
      * intros [[_ (i & X & _)] | [_ H]]; [discriminate | exact H].
  - apply contains_not_In in C. rewrite (F EDomain). split.
    + intro H. right. split; [tauto | exact H].
    + intros [[X _] | [_ H]]; [contradiction | exact H].
Qed.

Lemma reads_address_fun : forall s a b, reads_address s a -> reads_address s b -> a = b.
Proof. intros s a b Ha Hb. apply address_iff in Ha, Hb. congruence. Qed.

Lemma typed_iff : forall t s a, typed_address_try_from t s = Ok a <-> reads_typed t s a.
Proof.
  intros t s a. unfold typed_address_try_from, reads_typed. split.
  - intro H. okb H x Hx. apply address_iff in Hx. destruct x as [d|i].
    + inv H. left. eauto.
    + destruct i as [n|n], t; inv H; [right; left | right; right]; eauto.
  - intros [(d & H & ->) | [(-> & n & H & ->) | (-> & n & H & ->)]];
      apply address_iff in H; rewrite H; reflexivity.
Qed.

Lemma network_iff : forall s u, parse_network_type s = Ok u <-> means_upper s "IN".
Proof.
  intros s u. rewrite means_upper_iff by reflexivity. unfold parse_network_type.
  destruct (str_eqb_spec (to_upper s) (lit "IN")) as [H|H]; cbn [negb]; split; intro X;
    try discriminate; try (destruct u; reflexivity); try exact H; contradiction.
Qed.

Lemma addr_type_upper : forall t, upper_word (of_string (addr_type_name t)) = true.
Proof. intros []; reflexivity. Qed.
Lemma addr_type_iff : forall s t, addr_type_from_str s = Ok t <-> means_upper s (addr_type_name t).
Proof.
  intros s t. rewrite means_upper_iff by apply addr_type_upper. unfold addr_type_from_str.
  rewrite <- (table_iff [ (lit "IP4", IpV4); (lit "IP6", IpV6) ] addr_type_name).
  - destruct (assoc_str _ _); split; intro H; inv H; reflexivity.
  - repeat constructor.
  - intros []; reflexivity.
Qed.
Lemma address_type_iff : forall s t, parse_address_type s = Ok t <-> means_upper s (addr_type_name t).
Proof.
  intros s t. unfold parse_address_type. rewrite map_err_ok, addr_type_iff.
  rewrite !means_upper_iff by apply addr_type_upper. rewrite to_upper_idem. reflexivity.
Qed.

Lemma single_direction_iff : forall s d,
  parse_single_direction s = Ok d <-> is_word s (single_direction_name d).
Proof.
  intros s d. unfold parse_single_direction, is_word.
  rewrite <- (table_iff [ (lit "send", Send); (lit "recv", Recv) ] single_direction_name).
  - destruct (assoc_str _ _); split; intro H; inv H; reflexivity.
  - repeat constructor.
  - intros []; reflexivity.
Qed.

Lemma payload_iff : forall s p, parse_payload_type s = Ok p <-> payload_value s p.
Proof.
  intros s p. unfold parse_payload_type, payload_value, is_word.
  destruct (str_eqb_spec s (lit "*")) as [->|N].
  - destruct p; split; intro H; try discriminate; try reflexivity.
    apply p_u8_iff in H. discriminate.
  - split.
    + intro H. okb H n Hn. inv H. apply p_u8_iff in Hn. exact Hn.
    + destruct p; [intro H; apply p_u8_iff in H; rewrite H; reflexivity | intro H; contradiction].
Qed.

(** ** Lines other than attributes *)
Lemma version_iff : forall v ty, parse_version (trim v) = Ok ty <->
  exists n, ty = TyVersion n /\ version_value v n.
Proof.
  intros v ty. unfold parse_version, version_value. split.
  - intro H. okb H n Hn. apply p_u64_iff in Hn.
    destruct (N.eqb_spec n 0) as [->|]; [|discriminate]. inv H.
    exists 0. split; [reflexivity|]. exists (trim v). split; [apply core_trim_self|]. auto.
  - intros (n & -> & t & C & H & ->). apply core_trim in C. subst t.
    apply p_u64_iff in H. rewrite H. reflexivity.
Qed.

Lemma origin_iff : forall v ty, parse_origin (trim v) = Ok ty <->
  exists o, ty = TyOrigin o /\ origin_value v o.
Proof.
  intros v ty. unfold parse_origin, origin_value. rewrite sws_trim. split.
  - destruct (split_whitespace v) as [|t0 [|t1 [|t2 [|t3 [|t4 [|t5 more]]]]]] eqn:W;
      intro H; try (oka H; discriminate).
    okb H sid Hid. okb H ver Hver. okb H u Hu. okb H t Ht. okb H a Ha.
    apply p_u64_iff in Hid, Hver. apply network_iff in Hu. apply address_type_iff in Ht.
    apply typed_iff in Ha. destruct (negb _); [discriminate|]. inv H.
    eexists. split; [reflexivity|].
    exists t0, t1, t2, t3, t4, t5, more, t. rewrite words_sws. cbn. repeat split; assumption.
  - intros (o & -> & user & id & ver & net & at_ & addr & more & t & W & <- & H1 & H2 & H3 & H4 & H5).
    apply words_sws in W. rewrite W.
    apply p_u64_iff in H1, H2. rewrite H1, H2. cbn [bind].
    rewrite (proj2 (network_iff net tt) H3). cbn [bind].
    apply address_type_iff in H4. rewrite H4. cbn [bind].
    assert (F : typed_addr_type (o_unicast_addr o) = t).
    { destruct H5 as [(d & _ & ->) | [(-> & n & _ & ->) | (-> & n & _ & ->)]]; reflexivity. }
    apply typed_iff in H5. rewrite H5. cbn [bind]. rewrite F.
    assert (X : addr_type_eqb t t = true) by (destruct t; reflexivity). rewrite X. cbn [negb].
    destruct o; reflexivity.
Qed.

Lemma connection_iff : forall v ty, parse_connection (trim v) = Ok ty <->
  exists c, ty = TyConnection c /\ connection_value v c.
Proof.
  intros v ty. unfold parse_connection, connection_value. rewrite sws_trim. split.
  - destruct (split_whitespace v) as [|t0 [|t1 [|t2 [|t3 more]]]] eqn:W; intro H;
      try discriminate H.
    cbn [List.length Nat.eqb negb idx nth_error bind] in H.
    okb H u Hu. apply network_iff in Hu. okb H t Ht. apply address_type_iff in Ht.
    okb H r Hr. destruct r as [[addr ttl] amount]. okb H a Ha. apply typed_iff in Ha. inv H.
    eexists. split; [reflexivity|]. exists t0, t1, t2, t. rewrite words_sws. cbn [conn_address conn_ttl conn_amount].
    split; [exact W|]. split; [exact Hu|]. split; [exact Ht|].
    destruct (contains c_slash t2) eqn:C.
    + destruct (split c_slash t2) as [|a0 [|a1 [|a2 rest]]] eqn:S;
        cbn [List.length Nat.leb idx nth_error bind] in Hr; try discriminate.
      * okb Hr n Hn. apply p_u8_iff in Hn. inv Hr.
        exists addr, [a1]. rewrite fields_split. repeat split; try assumption. eauto.
      * okb Hr x Hx. okb Hx m Hm. apply p_u32_iff in Hm. inv Hx.
        okb Hr n Hn. apply p_u8_iff in Hn. inv Hr.
        exists addr, (a1 :: a2 :: rest). rewrite fields_split. repeat split; try assumption; eauto.
    + inv Hr. exists addr, []. rewrite fields_split.
      split; [apply split_none, C|]. repeat split; assumption.
  - intros (c & -> & net & at_ & rest & t & W & H1 & H2 & addr & opts & F & H3 & H4).
    apply words_sws in W. rewrite W. cbn [List.length Nat.eqb negb idx nth_error bind].
    rewrite (proj2 (network_iff net tt) H1). cbn [bind].
    apply address_type_iff in H2. rewrite H2. cbn [bind].
    apply fields_split in F. apply typed_iff in H3.
    destruct (contains c_slash rest) eqn:C.
    + change (split c_slash rest = addr :: opts) in F. rewrite F.
      destruct opts as [|ttl [|amount more]].
      * apply contains_In in C.
        assert (X : fields c_slash rest [addr]) by (apply fields_split; exact F).
        inversion X as [s N|t' s' l' N' F']; subst; [contradiction | inversion F'].
      * destruct H4 as [(n & E1 & H4) E2]. cbn [List.length Nat.leb idx nth_error bind].
        apply p_u8_iff in H4. rewrite H4. cbn [bind]. rewrite H3. cbn [bind].
        destruct c; cbn in *; subst; reflexivity.
      * destruct H4 as [(n & E1 & H4) (m & E2 & H5)]. cbn [List.length Nat.leb idx nth_error bind].
        apply p_u8_iff in H4. apply p_u32_iff in H5. rewrite H5. cbn [bind]. rewrite H4.
        cbn [bind]. rewrite H3. cbn [bind]. destruct c; cbn in *; subst; reflexivity.
    + rewrite split_none in F by exact C. inv F. destruct H4 as [E1 E2]. cbn [bind].
      rewrite H3. cbn [bind]. destruct c; cbn in *; subst; reflexivity.
Qed.

Lemma bandwidth_iff : forall v ty, parse_bandwidth (trim v) = Ok ty <->
  exists b, ty = TyBandwidth b /\ bandwidth_value v b.
Proof.
  intros v ty. unfold parse_bandwidth, bandwidth_value. split.
  - destruct (split c_colon (trim v)) as [|t0 [|t1 [|t2 more]]] eqn:S; intro H; try discriminate H.
    cbn [List.length Nat.eqb negb idx nth_error bind] in H. okb H n Hn. apply p_u32_iff in Hn.
    eexists. split; [inv H; reflexivity|]. exists (trim v), t0, t1, n.
    rewrite fields_split, !means_upper_iff by reflexivity.
    split; [apply core_trim_self|]. split; [exact S|]. split; [exact Hn|].
    destruct (str_eqb_spec (to_upper t0) (lit "AS")); [left; auto|].
    destruct (str_eqb_spec (to_upper t0) (lit "CT")); [right; left; auto|].
    destruct (str_eqb_spec (to_upper t0) (lit "TIAS")); [right; right; left; auto|].
    right; right; right. auto.
  - intros (b & -> & t & bt & num & n & C & F & H1 & H2). apply core_trim in C. subst t.
    apply fields_split in F. change (split c_colon (trim v) = [bt; num]) in F. rewrite F.
    cbn [List.length Nat.eqb negb idx nth_error bind].
    apply p_u32_iff in H1. rewrite H1. cbn [bind].
    rewrite !means_upper_iff in H2 by reflexivity.
    destruct H2 as [[X ->] | [[X ->] | [[X ->] | (X1 & X2 & X3 & ->)]]];
      try (rewrite X; reflexivity).
    destruct (str_eqb_spec (to_upper bt) (lit "AS")); [contradiction|].
    destruct (str_eqb_spec (to_upper bt) (lit "CT")); [contradiction|].
    destruct (str_eqb_spec (to_upper bt) (lit "TIAS")); [contradiction|]. reflexivity.
Qed.

Lemma timing_iff : forall v ty, parse_timing (trim v) = Ok ty <->
  exists t, ty = TyTiming t /\ timing_value v t.
Proof.
  intros v ty. unfold parse_timing, timing_value. rewrite sws_trim. split.
  - destruct (split_whitespace v) as [|t0 [|t1 [|t2 more]]] eqn:W; intro H; try discriminate H.
    cbn [List.length Nat.eqb negb idx nth_error bind] in H. okb H a Ha. okb H b Hb.
    apply p_u64_iff in Ha, Hb. inv H. eexists. split; [reflexivity|]. exists t0, t1.
    rewrite words_sws. auto.
  - intros (t & -> & a & b & W & Ha & Hb). apply words_sws in W. rewrite W.
    cbn [List.length Nat.eqb negb idx nth_error bind].
    apply p_u64_iff in Ha, Hb. rewrite Ha. cbn [bind]. rewrite Hb. destruct t; reflexivity.
Qed.

Lemma media_token_iff : forall s m, parse_media_token s = Ok m <-> means s (media_name m).
Proof.
  intros s m. rewrite means_iff by (destruct m; reflexivity). unfold parse_media_token.
  rewrite <- (table_iff [ (lit "audio", Audio); (lit "video", Video); (lit "application", Application) ] media_name).
  - destruct (assoc_str _ _); split; intro H; inv H; reflexivity.
  - repeat constructor.
  - intros []; reflexivity.
Qed.
Lemma protocol_iff : forall s p, parse_protocol_token s = Ok p <-> means_upper s (protocol_name p).
Proof.
  intros s p. rewrite means_upper_iff by (destruct p; reflexivity). unfold parse_protocol_token.
  match goal with |- context [assoc_str _ ?t] => rewrite <- (table_iff t protocol_name) end.
  - destruct (assoc_str _ _); split; intro H; inv H; reflexivity.
  - repeat constructor.
  - intros []; reflexivity.
Qed.

Lemma format_listed : forall n, format_out_of_range n = false <-> payload_listed n.
Proof. intro n. unfold format_out_of_range, payload_listed. lia. Qed.

Lemma formats_iff : forall l ns,
  mapM (fun num => n <- p_u32 num ;;
          if format_out_of_range n
          then Err (gen "format number in media line is out of range") else Ok n) l = Ok ns <->
  Forall2 (fun t n => numeral u32_max t n /\ payload_listed n) l ns.
Proof.
  intros l ns. rewrite mapM_ok.
  assert (G : forall t n, (n <- p_u32 t ;;
          if format_out_of_range n
          then Err (gen "format number in media line is out of range") else Ok n) = Ok n <->
          numeral u32_max t n /\ payload_listed n).
  { intros t n. split.
    - intro H. okb H x Hx. destruct (format_out_of_range x) eqn:R; inv H.
      apply p_u32_iff in Hx. apply format_listed in R. auto.
    - intros [H1 H2]. apply p_u32_iff in H1. apply format_listed in H2. rewrite H1. cbn [bind].
      rewrite H2. reflexivity. }
  split; intro F; induction F; constructor; auto; apply G; assumption.
Qed.

Lemma port_iff : forall s n, numeral 65535 s n <-> p_u32 s = Ok n /\ (65535 <? n) = false.
Proof.
  intros s n. rewrite (numeral_cut 65535 u32_max) by (unfold u32_max; lia).
  rewrite p_u32_iff. split; intros [H1 H2]; (split; [exact H1 | lia]).
Qed.

Lemma media_iff : forall v ty, parse_media (trim v) = Ok ty <->
  exists m, ty = TyMedia m /\ media_line_value v m.
Proof.
  intros v ty. unfold parse_media, media_line_value. rewrite sws_trim. split.
  - destruct (split_whitespace v) as [|t0 [|t1 [|t2 [|t3 more]]]] eqn:W; intro H; try discriminate H.
    cbn [List.length Nat.ltb Nat.leb idx nth_error bind skipn] in H.
    okb H m Hm. apply media_token_iff in Hm.
    okb H port Hp. destruct (65535 <? port) eqn:L; [discriminate|].
    okb H pc Hpc. okb H proto Hpr. apply protocol_iff in Hpr. okb H f Hf. inv H.
    eexists. split; [reflexivity|]. exists t0, t1, t2, (t3 :: more).
    rewrite words_sws. cbn [ml_media ml_port ml_port_count ml_proto ml_formats].
    split; [exact W|]. split; [discriminate|]. split; [exact Hm|]. split.
    { destruct (split c_slash t1) as [|p rest] eqn:S; [discriminate|].
      exists p, rest. rewrite fields_split. split; [exact S|].
      split; [apply port_iff; auto|]. destruct rest; [inv Hpc; reflexivity|].
      apply p_u32_iff; exact Hpc. }
    split; [exact Hpr|].
    destruct m; try (okb Hf l Hl; apply formats_iff in Hl; inv Hf; exists l; auto).
    inv Hf. reflexivity.
  - intros (m & -> & kind & port & proto & fmts & W & Hne & Hk & (p & rest & F & Hp & Hc) & Hpr & Hf).
    apply words_sws in W. rewrite W. destruct fmts as [|f fmts]; [congruence|].
    cbn [List.length Nat.ltb Nat.leb idx nth_error bind skipn].
    apply media_token_iff in Hk. rewrite Hk. cbn [bind].
    apply fields_split in F. change (split c_slash port = p :: rest) in F. rewrite F.
    apply port_iff in Hp. destruct Hp as [Hp L]. rewrite Hp. cbn [bind]. rewrite L.
    assert (Hpc : match p :: rest with | _ :: c :: _ => p_u32 c | _ => Ok 0 end = Ok (ml_port_count m)).
    { destruct rest; [congruence | apply p_u32_iff; exact Hc]. }
    rewrite Hpc. cbn [bind]. apply protocol_iff in Hpr. rewrite Hpr. cbn [bind].
    destruct (ml_media m) eqn:Em.
    + destruct Hf as (l & E1 & Hl). apply formats_iff in Hl. rewrite Hl. cbn [bind].
      destruct m; cbn in *; subst; reflexivity.
    + destruct Hf as (l & E1 & Hl). apply formats_iff in Hl. rewrite Hl. cbn [bind].
      destruct m; cbn in *; subst; reflexivity.
    + destruct m; cbn in *; subst; reflexivity.
Qed.

End WithExt.

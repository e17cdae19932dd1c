(** * Ranges and address families of accepted lines (proofs for C17, C34, C35) *)
From Coq Require Import List NArith ZArith Bool Ascii String Lia.
From Coq Require Import ZifyBool ZifyNat ZifyN.
From Verif Require Import Str Num Net Types Ext Show Address AttrParse Media Session.
From Verif Require Import StrLemmas NumLemmas NetLemmas.
From Verif Require Import SpecApi SpecDoc SpecVal SpecItems PPanic PDoc PDoc2.
From Verif Require Import PVal PVal2 PVal3 PVal4 PVal5 PVal6 PVal7 PVal8 PVal9.
Import ListNotations.
Open Scope N_scope.
Open Scope list_scope.

(** ** Addresses *)
Lemma ip_eqb_iff : forall a b, ip_eqb a b = true <-> a = b.
Proof.
  intros [a|a] [b|b]; cbn; split; intro H; try discriminate; try (inv H; apply N.eqb_refl);
    apply N.eqb_eq in H; congruence.
Qed.
Lemma addr_type_eqb_iff : forall a b, addr_type_eqb a b = true <-> a = b.
Proof. intros [] []; cbn; split; intro; congruence. Qed.
Lemma address_eqb_refl : forall a, address_eqb a a = true.
Proof. intros [d|i]; cbn; [apply str_eqb_eq; reflexivity | apply ip_eqb_iff; reflexivity]. Qed.
Lemma address_eqb_sym : forall a b, address_eqb a b = true -> address_eqb b a = true.
Proof.
  intros [d|i] [e|j]; cbn; try discriminate; intro H.
  - apply str_eqb_eq in H. apply str_eqb_eq. congruence.
  - apply ip_eqb_iff in H. apply ip_eqb_iff. congruence.
Qed.
Lemma address_eqb_trans : forall a b c, address_eqb a b = true -> address_eqb b c = true -> address_eqb a c = true.
Proof.
  intros [d|i] [e|j] [f|k]; cbn; try discriminate; intros H1 H2.
  - apply str_eqb_eq in H1, H2. apply str_eqb_eq. congruence.
  - apply ip_eqb_iff in H1, H2. apply ip_eqb_iff. congruence.
Qed.
Lemma typed_eqb_refl : forall a, typed_address_eqb a a = true.
Proof.
  intros [t d|i]; cbn; [|apply ip_eqb_iff; reflexivity].
  apply andb_true_intro. split; [apply addr_type_eqb_iff | apply str_eqb_eq]; reflexivity.
Qed.
Lemma typed_eqb_sym : forall a b, typed_address_eqb a b = true -> typed_address_eqb b a = true.
Proof.
  intros [t d|i] [u e|j]; cbn; try discriminate; intro H.
  - apply andb_prop in H. destruct H as [H1 H2]. apply addr_type_eqb_iff in H1. apply str_eqb_eq in H2.
    apply andb_true_intro. split; [apply addr_type_eqb_iff | apply str_eqb_eq]; congruence.
  - apply ip_eqb_iff in H. apply ip_eqb_iff. congruence.
Qed.
Lemma typed_eqb_trans : forall a b c, typed_address_eqb a b = true -> typed_address_eqb b c = true ->
  typed_address_eqb a c = true.
Proof.
  intros [t d|i] [u e|j] [w f|k]; cbn; try discriminate; intros H1 H2.
  - apply andb_prop in H1, H2. destruct H1 as [H1 H3], H2 as [H2 H4].
    apply addr_type_eqb_iff in H1, H2. apply str_eqb_eq in H3, H4.
    apply andb_true_intro. split; [apply addr_type_eqb_iff | apply str_eqb_eq]; congruence.
  - apply ip_eqb_iff in H1, H2. apply ip_eqb_iff. congruence.
Qed.
Lemma lower_recased : forall x y, recased x y -> to_lower x = to_lower y.
Proof.
  intros x y R. induction R as [|c d x y L R IH]; [reflexivity|].
  change (lower_char c ++ to_lower x = lower_char d ++ to_lower y). rewrite IH. f_equal.
  unfold same_letter in L. unfold lower_char.
  destruct (ascii_lower_cases c) as [[H1 E1]|[H1 E1]];
    destruct (ascii_lower_cases d) as [[H2 E2]|[H2 E2]]; rewrite E1, E2 in L;
    destruct ((65 <=? c) && (c <=? 90)) eqn:X; destruct ((65 <=? d) && (d <=? 90)) eqn:Y; try lia; try (f_equal; lia).
  - destruct (N.eqb_spec d 8490); [lia|]. f_equal; lia.
  - destruct (N.eqb_spec c 8490); [lia|]. f_equal; lia.
  - subst d. reflexivity.
Qed.
Lemma recased_lower : forall x y, Forall (fun c => c < 128) x -> Forall (fun c => c < 128) y ->
  to_lower x = to_lower y -> recased x y.
Proof.
  assert (A : forall c, c < 128 -> lower_char c = [ascii_lower c]).
  { intros c H. unfold lower_char. destruct (ascii_lower_cases c) as [[H1 ->]|[H1 ->]];
      destruct ((65 <=? c) && (c <=? 90)) eqn:X; try lia; [reflexivity|].
    destruct (N.eqb_spec c 8490); [lia | reflexivity]. }
  induction x as [|c x IH]; intros y Fx Fy H; inversion Fx; subst.
  - destruct y as [|d y]; [constructor|]. inversion Fy; subst.
    change (to_lower (d :: y)) with (lower_char d ++ to_lower y) in H. rewrite A in H by assumption. discriminate.
  - change (to_lower (c :: x)) with (lower_char c ++ to_lower x) in H. rewrite A in H by assumption.
    destruct y as [|d y]; [discriminate|]. inversion Fy; subst.
    change (to_lower (d :: y)) with (lower_char d ++ to_lower y) in H. rewrite A in H by assumption.
    cbn [app] in H. inv H. constructor; [assumption|]. apply IH; assumption.
Qed.
Lemma address_eqb_recased : forall a b, same_address a b -> address_eqb a b = true.
Proof.
  intros [d|i] [e|j]; cbn; try contradiction; intro H.
  - apply str_eqb_eq, lower_recased, H.
  - apply ip_eqb_iff, H.
Qed.
Lemma address_eqb_iff : forall a b, ascii_name a -> ascii_name b ->
  (address_eqb a b = true <-> same_address a b).
Proof.
  intros a b Ha Hb. split; [|apply address_eqb_recased].
  destruct a as [d|i], b as [e|j]; cbn in *; try discriminate; intro H.
  - apply str_eqb_eq in H. apply recased_lower; assumption.
  - apply ip_eqb_iff, H.
Qed.
Lemma typed_eqb_recased : forall a b, same_typed_address a b -> typed_address_eqb a b = true.
Proof.
  intros [t d|i] [u e|j]; cbn; try contradiction; intro H.
  - destruct H as [-> H]. apply andb_true_intro. split; [apply addr_type_eqb_iff; reflexivity|].
    apply str_eqb_eq, lower_recased, H.
  - apply ip_eqb_iff, H.
Qed.
Lemma typed_eqb_iff : forall a b, ascii_typed_name a -> ascii_typed_name b ->
  (typed_address_eqb a b = true <-> same_typed_address a b).
Proof.
  intros a b Ha Hb. split; [|apply typed_eqb_recased].
  destruct a as [t d|i], b as [u e|j]; cbn in *; try discriminate; intro H.
  - apply andb_prop in H. destruct H as [H1 H]. apply addr_type_eqb_iff in H1.
    apply str_eqb_eq in H. split; [exact H1|]. apply recased_lower; assumption.
  - apply ip_eqb_iff, H.
Qed.
Lemma eqb_ips : forall i,
  (forall b, address_eqb (Ip i) b = true -> b = Ip i) /\
  (forall b, typed_address_eqb (TIp i) b = true -> b = TIp i).
Proof.
  intros i. split.
  - intros [e|j]; cbn; intro H; [discriminate|]. apply ip_eqb_iff in H. congruence.
  - intros [u e|j]; cbn; intro H; [discriminate|]. apply ip_eqb_iff in H. congruence.
Qed.
Lemma of_typed_eqb : forall a b, typed_address_eqb a b = true ->
  address_eqb (address_of_typed a) (address_of_typed b) = true.
Proof.
  intros [t d|i] [u e|j]; cbn; try discriminate; intro H; [|exact H].
  apply andb_prop in H. tauto.
Qed.

Section WithExt.
Context {E : Ext}.

(** ** Items of sessions *)
Lemma Reads_In : forall n ls ts ws, Reads n ls ts ws -> forall ty, In ty ts ->
  exists i line l, nth_error ls i = Some line /\ ~ blank line /\ parse_sdp_line line (n + i) = Ok l /\ l_type l = ty.
Proof.
  intros n ls ts ws R. induction R as [n|n line rest ts ws B R IH|n line rest ts ws l B P R IH|n line rest ts ws e B P R IH];
    intros ty I.
  - destruct I.
  - destruct (IH _ I) as (i & x & l & N & H). exists (S i), x, l. rewrite <- Nat.add_succ_comm. auto.
  - destruct I as [<-|I].
    + exists 0%nat, line, l. rewrite Nat.add_0_r. auto.
    + destruct (IH _ I) as (i & x & l' & N & H). exists (S i), x, l'. rewrite <- Nat.add_succ_comm. auto.
  - destruct (IH _ I) as (i & x & l & N & H). exists (S i), x, l. rewrite <- Nat.add_succ_comm. auto.
Qed.
Lemma last_of_In : forall {A} (l : list A) x, last_of l = Some x -> In x l.
Proof.
  intros A l x H. unfold last_of in H. apply in_rev. destruct (rev l); [discriminate|]. inv H. now left.
Qed.
Lemma assembled_items : forall ts s, Assembles ts s -> forall ty, In ty (session_items s) -> In ty ts.
Proof.
  intros ts s (name & head & secs & -> & _ & _ & _ & Hb & Ha & Ht & Hc & Hm) ty I.
  assert (Conn : forall c l, In c (connections l) -> In (TyConnection c) l).
  { intros c l H. apply in_flat_map in H. destruct H as (t & It & K). destruct t; try contradiction; destruct K as [K|[]]. subst. exact It. }
  assert (Band : forall c l, In c (bandwidths l) -> In (TyBandwidth c) l).
  { intros c l H. apply in_flat_map in H. destruct H as (t & It & K). destruct t; try contradiction; destruct K as [K|[]]. subst. exact It. }
  assert (Attr : forall c l, In c (attributes l) -> In (TyAttribute c) l).
  { intros c l H. apply in_flat_map in H. destruct H as (t & It & K). destruct t; try contradiction; destruct K as [K|[]]. subst. exact It. }
  assert (Time : forall c l, In c (timings l) -> In (TyTiming c) l).
  { intros c l H. apply in_flat_map in H. destruct H as (t & It & K). destruct t; try contradiction; destruct K as [K|[]]. subst. exact It. }
  unfold session_items in I. destruct I as [<-|[<-|I]]; [left; reflexivity|right; left; reflexivity|].
  right; right; right. apply in_or_app.
  apply in_app_or in I. destruct I as [I|I].
  { left. rewrite Ht in I. destruct (last_of (timings head)) eqn:L; [|destruct I].
    destruct I as [<-|[]]. apply Time, last_of_In, L. }
  apply in_app_or in I. destruct I as [I|I].
  { left. rewrite Hc in I. destruct (last_of (connections head)) eqn:L; [|destruct I].
    destruct I as [<-|[]]. apply Conn, last_of_In, L. }
  apply in_app_or in I. destruct I as [I|I].
  { left. rewrite Hb in I. apply in_map_iff in I. destruct I as (x & <- & I). apply Band, I. }
  apply in_app_or in I. destruct I as [I|I].
  { left. rewrite Ha in I. apply in_map_iff in I. destruct I as (x & <- & I). apply Attr, I. }
  right. apply in_flat_map in I. destruct I as (m & Im & I). rewrite Hm in Im.
  apply in_map_iff in Im. destruct Im as (sec & <- & Is). apply in_flat_map. exists sec. split; [exact Is|].
  destruct sec as [ml body]. unfold media_items, section_media in I. cbn [m_media m_connection m_bandwidth m_attribute fst snd] in I.
  unfold section_lines. cbn [fst snd]. destruct I as [<-|I]; [left; reflexivity|]. right.
  apply in_app_or in I. destruct I as [I|I].
  { destruct (connections body) as [|c cs] eqn:K; [destruct I|]. destruct I as [<-|[]].
    apply Conn. rewrite K. now left. }
  apply in_app_or in I. destruct I as [I|I].
  { apply in_map_iff in I. destruct I as (x & <- & I). apply Band, I. }
  apply in_map_iff in I. destruct I as (x & <- & I). apply filter_In in I. apply Attr, I.
Qed.
Lemma item_line : forall sdp b s, parse_sdp sdp b = Ok s -> forall ty, In ty (session_items s) ->
  exists i line l, line_result sdp i line (Ok l) /\ l_type l = ty.
Proof.
  intros sdp b s H ty I. apply document in H. destruct H as (_ & ts & ws & R & _ & _ & _ & A & _).
  destruct (Reads_In _ _ _ _ R ty (assembled_items _ _ A _ I)) as (i & line & l & N & B & P & T).
  exists i, line, l. split; [|exact T]. split; [exact N|]. split; assumption.
Qed.
Lemma item_means : forall sdp b s, parse_sdp sdp b = Ok s -> forall ty, In ty (session_items s) ->
  exists line, In line (lines sdp) /\ line_means line ty.
Proof.
  intros sdp b s H ty I. destruct (item_line _ _ _ H _ I) as (i & line & l & (N & _ & P) & <-).
  exists line. split; [eapply nth_error_In, N|]. apply line_fwd in P. tauto.
Qed.

(** ** Ranges *)
Lemma numeral_le : forall m s n, numeral m s n -> n <= m.
Proof. intros m s n (ds & _ & _ & _ & _ & H). exact H. Qed.
Lemma hex_le : forall m s n, hex_numeral m s n -> n <= m.
Proof. intros m s n (ds & cs & _ & _ & _ & _ & H). exact H. Qed.
Lemma number_le : forall m v n, number_value m v n -> n <= m.
Proof. intros m v n (t & _ & H). eapply numeral_le, H. Qed.
Lemma field_range : forall {A} (is : str -> Prop) ps (reads : str -> A -> Prop) none x (P : A -> Prop),
  field_of is ps reads none x -> P none -> (forall v y, reads v y -> P y) -> P x.
Proof.
  intros A is ps reads none x P (vs & _ & _ & H) N R. destruct (last_of vs); [eapply R, H | congruence].
Qed.
Lemma forall2_r : forall {A B} (R : A -> B -> Prop) (P : B -> Prop) l l', Forall2 R l l' ->
  (forall x y, R x y -> P y) -> Forall P l'.
Proof. intros A B R P l l' F H. induction F; constructor; eauto. Qed.
Lemma some_num_le : forall m v o, some_reads (numeral m) v o -> at_most m o.
Proof. intros m v o (x & -> & H). eapply numeral_le, H. Qed.
Lemma field_num_le : forall is ps m d x, field_of is ps (numeral m) d x -> d <= m -> x <= m.
Proof.
  intros is ps m d x H D. apply (field_range _ _ _ _ _ (fun n => n <= m) H D). intros v y. apply numeral_le.
Qed.
Lemma field_opt_le : forall is ps m x, option_field is ps (numeral m) x -> at_most m x.
Proof.
  intros is ps m x H. apply (field_range _ _ _ _ _ (at_most m) H I). intros v y. apply some_num_le.
Qed.

Lemma reads_range : ext_ok E -> forall s a, reads_address s a -> address_range a.
Proof.
  intros OK s a [(_ & i & P & ->)|(_ & h & P & ->)].
  - apply parse_ip_ok in P. destruct i; exact P.
  - destruct h; cbn; [exact I|eapply host_ipv4_range; eassumption | eapply host_ipv6_range; eassumption].
Qed.
Lemma typed_reads_range : ext_ok E -> forall t s a, reads_typed t s a -> typed_range a.
Proof.
  intros OK t s a [(d & _ & ->)|[(_ & n & R & ->)|(_ & n & R & ->)]]; [exact I|..];
    apply (reads_range OK) in R; exact R.
Qed.
Lemma rtx_range : forall ps r, rtx_value ps r ->
  match r with Some r => u8 (rtx_apt r) /\ at_most u32_max (rtx_time r) | None => True end.
Proof.
  intros ps r H. induction H as [|ps r n v x R IH M V|ps r n v x R IH M V|ps r n v R IH M1 M2]; cbn.
  - exact I.
  - split; [apply numeral_le in V; exact V | exact I].
  - split; [apply IH | apply numeral_le in V; exact V].
  - exact IH.
Qed.
Lemma defaults_range : fmtp_range fmtp_defaults.
Proof.
  unfold fmtp_range, at_most, u32, u8, fmtp_defaults; cbn.
  repeat match goal with |- _ /\ _ => split end; try lia; constructor.
Qed.
Lemma list_range : forall ts p, fmtp_list_value ts p -> fmtp_range p.
Proof.
  intros ts p (ps & _ & H). cbv zeta in H.
  destruct H as (Hpl & Hpm & _ & Hmb & Hfs & Hcp & Hdp & Hbr & Hfr & Hp & Hl & Ht & Hpb & Hab & Hpt & Hxp & Hnp
                 & _ & _ & _ & _ & R & En & _).
  unfold fmtp_range, u32.
  repeat match goal with
  | H : field_of _ _ (numeral _) _ _ |- _ => apply field_num_le in H; [|discriminate]
  | H : option_field _ _ (numeral _) _ |- _ => apply field_opt_le in H
  end.
  apply rtx_range in R. rewrite En.
  apply (field_range _ _ _ _ _ (fun n => n <= 16777215)) in Hpl; [|lia|intros v y; apply hex_le].
  exact (conj Hpl (conj Hpm (conj Hp (conj Hl (conj Ht (conj Hfs (conj Hcp (conj Hdp (conj Hbr
    (conj Hmb (conj Hfr (conj Hpb (conj Hab (conj Hpt (conj Hnp (conj Hxp (conj (Forall_nil _) R))))))))))))))))).
Qed.
Lemma block_range : forall t p, fmtp_block_value t p -> fmtp_range p.
Proof.
  intros t p [(_ & ts & _ & V)|[(_ & _ & ts & _ & F & Eq)|(_ & _ & Eq & _)]].
  - eapply list_range, V.
  - assert (Fe : Forall (fun n => n <= 128) (encodings p)).
    { eapply forall2_r; [exact F|]. intros x y. apply numeral_le. }
    rewrite Eq. pose proof defaults_range as D. unfold fmtp_range in *.
    unfold set_encodings. destruct D as (D1 & D2 & D3 & D4 & D5 & D6 & D7 & D8 & D9 & D10 & D11 & D12 & D13 & D14 & D15 & D16 & D17 & D18).
    exact (conj D1 (conj D2 (conj D3 (conj D4 (conj D5 (conj D6 (conj D7 (conj D8 (conj D9 (conj D10 (conj D11 (conj D12 (conj D13 (conj D14 (conj D15 (conj D16 (conj Fe D18))))))))))))))))).
  - rewrite Eq. exact defaults_range.
Qed.
Lemma payload_ok : forall s p, payload_value s p -> payload_range p.
Proof. intros s [n|] H; [apply numeral_le in H; exact H | exact I]. Qed.
Lemma xy_ok : forall s r, xy_value s r -> xy_range_range r.
Proof.
  intros s r [(n & H & ->)|(inner & _ & [H|[H|H]])].
  - split; [discriminate|]. constructor; [eapply numeral_le, H | constructor].
  - destruct H as (a & b & c & x & y & z & _ & Ha & Hb & Hc & ->). cbn. unfold u32.
    apply numeral_le in Ha, Hb, Hc. exact (conj Ha (conj Hc Hb)).
  - destruct H as (a & b & x & y & _ & Ha & Hb & ->). cbn. unfold u32.
    apply numeral_le in Ha, Hb. exact (conj Ha (conj Hb I)).
  - destruct H as (ts & l & _ & F & L & ->). cbn. split; [destruct l; [cbn in L; lia | discriminate]|].
    eapply forall2_r; [exact F|]. intros x y. apply numeral_le.
Qed.
Definition sar_range (r : option s_range) : Prop :=
  match r with
  | Some (SRange a b) => u32 a /\ u32 b /\ f32_ge a b = false
  | Some (SDiscrete l) => l <> [] /\ Forall u32 l
  | None => True
  end.
Lemma sar_ok : ext_ok E -> forall s r, sar_value s r -> sar_range r.
Proof.
  intros OK s r [(_ & x & P & ->)|(inner & _ & [H|[H|H]])].
  - split; [discriminate|]. constructor; [eapply (f32_range _ OK), P | constructor].
  - destruct H as (_ & x & y & (a & b & _ & Pa & Pb & G) & ->). cbn.
    split; [eapply (f32_range _ OK), Pa|]. split; [eapply (f32_range _ OK), Pb | exact G].
  - destruct H as (_ & _ & ts & l & F & P & _ & ->). cbn. split.
    + intros ->. inversion P; subst. inversion F.
    + eapply forall2_r; [exact P|]. intros x y. apply (f32_range _ OK).
  - destruct H as (_ & _ & ->). exact I.
Qed.
Lemma somes_In : forall {A} (l : list (option A)) x, In x (somes l) -> In (Some x) l.
Proof.
  intros A l x H. unfold somes in H. apply in_flat_map in H. destruct H as ([y|] & I & K); cbn in K; [|contradiction]. destruct K as [K|[]].
  subst. exact I.
Qed.
Lemma forall2_In_r : forall {A B} (R : A -> B -> Prop) l l' y, Forall2 R l l' -> In y l' -> exists x, In x l /\ R x y.
Proof.
  intros A B R l l' y F. induction F as [|a b l l' H F IH]; intros I; [destruct I|].
  destruct I as [<-|I]; [exists a; split; [now left | exact H]|].
  destruct (IH I) as (x & Ix & K). exists x. split; [now right | exact K].
Qed.
Lemma image_set_ok : ext_ok E -> forall s x, image_set_value s x -> image_set_range x.
Proof.
  intros OK s x (inner & xt & yt & opts & _ & _ & X & Y & (vs1 & rs1 & _ & F1 & E1) & (vs2 & rs2 & _ & F2 & E2)
                 & (vs3 & rs3 & _ & F3 & E3)).
  split; [eapply xy_ok, X|]. split; [eapply xy_ok, Y|].
  split; [|split].
  - change (sar_range (set_sar x)). destruct (set_sar x) as [r|]; [|exact I]. symmetry in E1.
    apply last_of_In, somes_In in E1. destruct (forall2_In_r _ _ _ _ F1 E1) as (t & _ & V).
    apply (sar_ok OK) in V. exact V.
  - destruct (set_par x) as [r|]; [|exact I]. symmetry in E2. apply last_of_In in E2.
    destruct (forall2_In_r _ _ _ _ F2 E2) as (t & _ & i & _ & a & b & _ & Pa & Pb & G).
    split; [eapply (f32_range _ OK), Pa|]. split; [eapply (f32_range _ OK), Pb | exact G].
  - destruct (set_q x) as [r|]; [|exact I]. symmetry in E3. apply last_of_In in E3.
    destruct (forall2_In_r _ _ _ _ F3 E3) as (t & _ & P). apply (f32_range _ OK) in P. exact P.
Qed.
Lemma image_list_ok : ext_ok E -> forall ts l, image_list_value ts l -> image_list_range l.
Proof.
  intros OK ts l [(_ & ->)|(_ & sets & F & ->)]; [exact I|]. cbn.
  eapply forall2_r; [exact F|]. intros x y. apply (image_set_ok OK).
Qed.
Lemma rid_params_ok : forall ts p d, rid_params_value ts p d ->
  u32 (max_width p) /\ u32 (max_height p) /\ u32 (max_fps p) /\ u32 (rid_max_fs p) /\
  u32 (rid_max_br p) /\ u32 (max_pps p).
Proof.
  intros ts p d (ps & _ & H). cbv zeta in H. destruct H as (H1 & H2 & H3 & H4 & H5 & H6 & _).
  unfold u32. apply field_num_le in H1, H2, H3, H4, H5, H6; [|discriminate..]. exact (conj H1 (conj H2 (conj H3 (conj H4 (conj H5 H6))))).
Qed.
Lemma attr_value_range : ext_ok E -> forall v a, attr_value v a -> attr_range a.
Proof.
  intros OK v a H. destruct a; cbn [attr_value] in H; cbn [attr_range]; try exact I;
    try (apply number_le in H; unfold u64; cbv [u64_max] in H; lia).
  - (* candidate *)
    destruct H as (f & cp & tr & pr & ad & po & tp & ty & exts & ps & _ & _ & Hc & _ & Hp & Ha & Hpo & _ & _ & _
                   & Hg & Hn & Hr & Hrp & _).
    apply numeral_le in Hc, Hp, Hpo. apply field_opt_le in Hg, Hn, Hrp. apply (reads_range OK) in Ha.
    unfold candidate_range. refine (conj Hc (conj Hp (conj Hpo (conj Hrp (conj Hg (conj Hn (conj Ha _))))))).
    apply (field_range _ _ _ _ _ (fun o => match o with Some x => address_range x | None => True end) Hr I).
    intros w y (x & -> & R). eapply reads_range; eassumption.
  - destruct H as (id & url & more & _ & _ & D & _). unfold u16.
    destruct (ext_direction a); [destruct D as (x & y & _ & D & _) | destruct D as [_ D]];
      apply numeral_le in D; exact D.
  - destruct H as (h & t & bs & _ & _ & _ & F & L). split.
    + eapply forall2_r; [exact F|]. intros x y [_ K]. eapply hex_le, K.
    + rewrite <- L. symmetry. eapply forall2_length, F.
  - destruct H as (t & pt & bl & _ & _ & Hp & B). apply numeral_le in Hp. split; [exact Hp|]. eapply block_range, B.
  - destruct H as (t & _ & P & H). split; [eapply (f64_range _ OK), P | exact H].
  - destruct H as (t & pt & d & fi & more & dir & l1 & l2 & _ & _ & Hp & _ & H1 & H2 & D).
    split; [eapply payload_ok, Hp|]. apply (image_list_ok OK) in H1.
    assert (R2 : image_list_range l2).
    { destruct more; [subst l2; constructor|]. destruct H2 as [_ H2]. eapply image_list_ok; eassumption. }
    destruct dir; destruct D as [-> ->]; auto.
  - destruct H as (t & dir & more & _ & _ & _ & H). unfold rid_range.
    destruct more as [|params more].
    + destruct H as [-> P]. split; [constructor|]. cbv zeta. eapply rid_params_ok, P.
    + destruct H as (ps & _ & [(pts & fs & rest & _ & _ & F & P)|(_ & -> & P)]).
      * split; [|cbv zeta; eapply rid_params_ok, P]. eapply forall2_r; [exact F|].
        intros x y (z & _ & K). eapply numeral_le, K.
      * split; [constructor|]. cbv zeta. eapply rid_params_ok, P.
  - destruct H as (c & ad & po & more & _ & Hc & Ha & Hp). apply numeral_le in Hc, Hp. apply (reads_range OK) in Ha. exact (conj Hc (conj Hp Ha)).
  - destruct H as (pt & co & more & fr & rest & _ & Hp & _ & Hf & Hc). apply numeral_le in Hp, Hf.
    refine (conj Hp (conj Hf _)). destruct rest; [rewrite Hc; exact I|].
    destruct Hc as (n & -> & K). eapply numeral_le, K.
  - destruct H as (po & more & _ & Hp & H). apply numeral_le in Hp. split; [exact Hp|].
    destruct more as [|net [|ty [|ad more]]]; try contradiction; [rewrite H; exact I|].
    destruct H as (_ & t & x & _ & R & ->). eapply typed_reads_range; eassumption.
  - destruct H as (t & pt & ty & more & _ & _ & Hp & _). eapply payload_ok, Hp.
  - destruct H as (po & ap & ch & _ & Hp & _ & Hc). apply numeral_le in Hp, Hc. exact (conj Hp Hc).
  - destruct H as (t & _ & [(_ & K & _)|(id & r & _ & K & _)]); eapply numeral_le, K.
  - destruct H as (w & ids & _ & _ & N & F). split; [intros ->; inversion F; subst; congruence|].
    eapply forall2_r; [exact F|]. intros x y (K & _). eapply numeral_le, K.
Qed.
Lemma type_value_range : ext_ok E -> forall v ty, type_value v ty -> item_range ty.
Proof.
  intros OK v ty H. destruct ty; cbn [type_value] in H; cbn [item_range].
  - destruct H as (t & _ & [(_ & _ & [F|V])|(name & rest & _ & _ & V)]);
      [destruct a; cbn in F; try contradiction; exact I|eapply attr_value_range; eassumption..].
  - destruct H as (t & ty & num & n & _ & _ & Hn & D). apply numeral_le in Hn.
    destruct D as [[_ ->]|[[_ ->]|[[_ ->]|(_ & _ & _ & ->)]]]; exact Hn.
  - destruct H as (net & ty & rest & t & _ & _ & _ & ad & opts & _ & R & O).
    split; [eapply typed_reads_range; eassumption|].
    destruct opts as [|ttl [|am opts]].
    + destruct O as [-> ->]. split; exact I.
    + destruct O as [(n & -> & K) ->]. split; [eapply numeral_le, K | exact I].
    + destruct O as [(n & -> & K) (k & -> & L)]. split; eapply numeral_le; eassumption.
  - destruct H as (kind & port & proto & fmts & _ & N & _ & (p & more & _ & Hp & Hc) & _ & F).
    apply numeral_le in Hp. split; [exact Hp|]. split.
    { destruct more; [rewrite Hc; unfold u32; lia | eapply numeral_le, Hc]. }
    destruct (ml_media m);
      [destruct F as (l & -> & F); split; [intros ->; inversion F; subst; congruence|];
       eapply forall2_r; [exact F|]; intros x y [_ K]; exact K ..|].
    rewrite F. exact N.
  - destruct H as (us & id & ve & net & ty & ad & more & t & _ & _ & Hi & Hv & _ & _ & R).
    apply numeral_le in Hi, Hv. split; [exact Hi|]. split; [exact Hv|]. eapply typed_reads_range; eassumption.
  - exact I.
  - destruct H as (a & b & _ & Ha & Hb). apply numeral_le in Ha, Hb. exact (conj Ha Hb).
  - destruct H as (t & _ & _ & ->). reflexivity.
Qed.
Lemma line_range : ext_ok E -> forall line n l, parse_sdp_line line n = Ok l -> item_range (l_type l).
Proof.
  intros OK line n l H. apply line_fwd in H. destruct H as (_ & _ & w1 & c & w2 & v & _ & _ & _ & _ & V).
  eapply type_value_range; eassumption.
Qed.
Lemma session_range : ext_ok E -> forall sdp b s, parse_sdp sdp b = Ok s -> Forall item_range (session_items s).
Proof.
  intros OK sdp b s H. apply Forall_forall. intros ty I.
  destruct (item_line _ _ _ H _ I) as (i & line & l & (_ & _ & P) & <-). eapply line_range; eassumption.
Qed.

(** ** Families *)
Lemma typed_family : forall t s a, reads_typed t s a -> family a = t.
Proof. intros t s a [(d & _ & ->)|[(-> & n & _ & ->)|(-> & n & _ & ->)]]; reflexivity. Qed.
Lemma item_family : forall line n l a, parse_sdp_line line n = Ok l -> item_address (l_type l) = Some a ->
  exists w1 c w2 v word text, line = w1 ++ [c] ++ w2 ++ 61 :: v /\ blank w1 /\ blank w2 /\
    same_letter c (line_letter (l_type l)) /\ declares v (l_type l) word text /\
    means_upper word (addr_type_name (family a)) /\ reads_typed (family a) text a.
Proof.
  intros line n l a P I. apply line_fwd in P. destruct P as (_ & _ & w1 & c & w2 & v & -> & B1 & B2 & L & V).
  destruct l as [k ty tx]. cbn [l_type] in *.
  assert (R : exists word text, declares v ty word text /\ means_upper word (addr_type_name (family a)) /\
    reads_typed (family a) text a).
  { destruct ty as [at_|b|cn|m|o|s|t|ve]; cbn [item_address] in I; try discriminate; cbn [type_value] in V.
    - destruct at_; try discriminate. destruct V as (t & C & [(_ & _ & [[]|V])|(name & rest & Cu & M & V)]).
      + destruct V as (po & more & W & _). apply words_blank in W; [discriminate | constructor].
      + destruct V as (po & more & W & _ & V). destruct more as [|net [|ty [|ad more]]]; try contradiction; [congruence|].
        destruct V as (_ & u & x & Mu & R & X). assert (x = a) as -> by congruence.
        pose proof (typed_family _ _ _ R) as <-. exists ty, ad. split; [|auto].
        exists t, name, rest, po, net, more. auto.
    - inv I. destruct V as (net & ty & rest & t & W & _ & M & ad & opts & F & R & _).
      pose proof (typed_family _ _ _ R) as <-. exists ty, ad. split; [|auto]. exists net, rest, opts. auto.
    - inv I. destruct V as (us & id & ve & net & ty & ad & more & t & W & _ & _ & _ & _ & M & R).
      pose proof (typed_family _ _ _ R) as <-. exists ty, ad. split; [|auto]. exists us, id, ve, net, more. exact W. }
  destruct R as (word & text & D & M & R). exists w1, c, w2, v, word, text. auto 10.
Qed.
Lemma session_families : forall sdp b s ty a, parse_sdp sdp b = Ok s -> In ty (session_items s) ->
  item_address ty = Some a ->
  exists w1 c w2 v word text, In (w1 ++ [c] ++ w2 ++ 61 :: v) (lines sdp) /\ blank w1 /\ blank w2 /\
    same_letter c (line_letter ty) /\ declares v ty word text /\
    means_upper word (addr_type_name (family a)) /\ reads_typed (family a) text a.
Proof.
  intros sdp b s ty a H I A. destruct (item_line _ _ _ H _ I) as (i & line & l & (N & _ & P) & <-).
  destruct (item_family _ _ _ _ P A) as (w1 & c & w2 & v & word & text & -> & R).
  exists w1, c, w2, v, word, text. split; [eapply nth_error_In, N | exact R].
Qed.

(** Mismatches. *)
Lemma typed_mismatch : forall t s i, reads_address s (Ip i) -> ip_family i <> t ->
  typed_address_try_from t s = Err (AddressTypeMismatch (ip_family i) t).
Proof.
  intros t s i R N. unfold typed_address_try_from. apply address_iff in R. rewrite R. cbn [bind].
  destruct i, t; cbn in *; congruence.
Qed.
Lemma letter_eq : forall c v n, is_ws c = false -> c <> 61 -> c < 128 -> trim v <> [] ->
  parse_sdp_line (c :: 61 :: v) n =
  match parse_value (to_lower [c]) (trim v) v with
  | Ok ty => Ok {| l_number := n; l_type := ty; l_text := c :: 61 :: v |}
  | Err e => Err (line_error (c :: 61 :: v) n e)
  | Panic => Panic
  end.
Proof.
  intros c v n W N A T. unfold parse_sdp_line.
  assert (C : contains c_eq (c :: 61 :: v) = true) by (apply contains_In; right; left; reflexivity).
  rewrite C. cbn [negb].
  assert (S : splitn 2 c_eq (c :: 61 :: v) = [[c]; v]).
  { apply (proj1 (cut_splitn2 61 _ [c] v)). split; [reflexivity|]. intros [K|[]]. congruence. }
  rewrite S. cbv zeta. replace (trim [c]) with [c].
  2:{ unfold trim, trim_start, trim_end. cbn. rewrite W. cbn. rewrite W. reflexivity. }
  assert (L : byte_len [c] = 1).
  { cbn [byte_len fold_right]. unfold utf8_len. destruct (N.ltb_spec c 128); [reflexivity | lia]. }
  rewrite L. change (1 <? 1) with false. cbn [is_empty]. cbv iota.
  destruct (trim v) eqn:Tv; [congruence|]. cbn [is_empty andb]. cbv iota. reflexivity.
Qed.
Lemma words_trim : forall v w l, words v (w :: l) -> trim v <> [].
Proof.
  intros v w l W K. apply words_sws in W. rewrite <- sws_trim, K in W. discriminate.
Qed.
Lemma origin_mismatch : forall v user id ver net ty addr more x y t i n,
  words v (user :: id :: ver :: net :: ty :: addr :: more) ->
  numeral u64_max id x -> numeral u64_max ver y -> means_upper net "IN" ->
  means_upper ty (addr_type_name t) -> reads_address addr (Ip i) -> ip_family i <> t ->
  parse_sdp_line (lit "o=" ++ v) n =
    Err (PLine (AddressTypeMismatch (ip_family i) t) (lit "o=" ++ v) n).
Proof.
  intros v user id ver net ty addr more x y t i n W Hi Hv Hn Ht R N.
  cbn [app]. rewrite letter_eq; [|reflexivity|discriminate|reflexivity|eapply words_trim, W].
  change (parse_value (to_lower [111]) (trim v) v) with (parse_origin (trim v)).
  unfold parse_origin. rewrite sws_trim. rewrite (proj1 (words_sws _ _) W).
  apply p_u64_iff in Hi, Hv. rewrite Hi. cbn [bind]. rewrite Hv. cbn [bind].
  rewrite (proj2 (network_iff net tt) Hn). cbn [bind].
  rewrite (proj2 (address_type_iff ty t) Ht). cbn [bind].
  rewrite (typed_mismatch _ _ _ R N). reflexivity.
Qed.
Lemma connection_mismatch : forall v net ty rest addr opts t i n,
  words v [net; ty; rest] -> means_upper net "IN" -> means_upper ty (addr_type_name t) ->
  fields 47 rest (addr :: opts) ->
  match opts with
  | [] => True
  | [ttl] => exists x, numeral u8_max ttl x
  | ttl :: amount :: _ => (exists x, numeral u8_max ttl x) /\ exists y, numeral u32_max amount y
  end ->
  reads_address addr (Ip i) -> ip_family i <> t ->
  parse_sdp_line (lit "c=" ++ v) n =
    Err (PLine (AddressTypeMismatch (ip_family i) t) (lit "c=" ++ v) n).
Proof.
  intros v net ty rest addr opts t i n W Hn Ht F O R N.
  cbn [app]. rewrite letter_eq; [|reflexivity|discriminate|reflexivity|eapply words_trim, W].
  change (parse_value (to_lower [99]) (trim v) v) with (parse_connection (trim v)).
  unfold parse_connection. rewrite sws_trim. rewrite (proj1 (words_sws _ _) W). cbv zeta.
  cbn [List.length Nat.eqb negb idx nth_error bind].
  rewrite (proj2 (network_iff net tt) Hn). cbn [bind].
  rewrite (proj2 (address_type_iff ty t) Ht). cbn [bind].
  destruct opts as [|ttl opts].
  - assert (C : contains c_slash rest = false).
    { apply contains_not_In. inversion F; subst; [assumption|]. match goal with H : fields _ _ [] |- _ => inversion H end. }
    rewrite C. cbn [bind].
    assert (rest = addr) as ->.
    { inversion F; subst; [reflexivity|]. match goal with H : fields _ _ [] |- _ => inversion H end. }
    rewrite (typed_mismatch _ _ _ R N). reflexivity.
  - assert (C : contains c_slash rest = true) by (apply contains_In; eapply fields_In; exact F).
    rewrite C. apply fields_split in F. change c_slash with 47. rewrite F. destruct opts as [|am opts].
    + cbn [List.length Nat.leb idx nth_error bind]. destruct O as (x & O). apply p_u8_iff in O. rewrite O. cbn [bind].
      rewrite (typed_mismatch _ _ _ R N). reflexivity.
    + cbn [List.length Nat.leb idx nth_error bind]. destruct O as ((x & O) & y & O2).
      apply p_u8_iff in O. apply p_u32_iff in O2. rewrite O2. cbn [bind]. rewrite O. cbn [bind].
      rewrite (typed_mismatch _ _ _ R N). reflexivity.
Qed.
Lemma a_eq : forall x n, trim x <> [] -> parse_sdp_line (97 :: 61 :: x) n =
  match attr_from_str (trim x) with
  | Ok a => Ok {| l_number := n; l_type := TyAttribute a; l_text := 97 :: 61 :: x |}
  | Err e => Err (line_error (97 :: 61 :: x) n e)
  | Panic => Panic
  end.
Proof.
  intros x n T. rewrite letter_eq; [|reflexivity|discriminate|reflexivity|exact T].
  change (parse_value (to_lower [97]) (trim x) x) with (parse_attribute (trim x)).
  unfold parse_attribute. rewrite trim_idem. destruct (attr_from_str (trim x)); reflexivity.
Qed.
Lemma attr_eq : forall name p, assoc_str name attr_parsers = Some p ->
  mem_str name flag_names = false -> to_lower name = name -> contains 58 name = false ->
  starts_ok name -> forall v n,
  parse_sdp_line (lit "a=" ++ name ++ 58 :: v) n =
  match p (trim v) with
  | Ok a => Ok {| l_number := n; l_type := TyAttribute a; l_text := lit "a=" ++ name ++ 58 :: v |}
  | Err e => Err (line_error (lit "a=" ++ name ++ 58 :: v) n e)
  | Panic => Panic
  end.
Proof.
  intros name p A F L C Sn v n. cbn [app]. apply contains_not_In in C.
  rewrite a_eq; rewrite trim_name by assumption.
  2:{ destruct Sn as (c & y & -> & _). discriminate. }
  unfold attr_from_str.
  assert (S : splitn 2 c_colon (name ++ 58 :: trim_end v) = [name; trim_end v])
    by (apply (proj1 (cut_splitn2 58 _ _ _)); split; auto).
  rewrite S.
  cbn [idx nth_error bind List.length Nat.ltb Nat.leb]. cbn [andb]. rewrite L, F, A.
  assert (T : trim (trim_end v) = trim v).
  { destruct (trim_end_suffix v) as (w & Ev & W). rewrite Ev at 2.
    symmetry. exact (trim_pad [] (trim_end v) w eq_refl W). }
  rewrite T. destruct (p (trim v)); reflexivity.
Qed.
Lemma rtcp_mismatch : forall v port net ty addr more x t i n,
  words v (port :: net :: ty :: addr :: more) -> numeral u16_max port x ->
  means_upper net "IN" -> means_upper ty (addr_type_name t) ->
  reads_address addr (Ip i) -> ip_family i <> t ->
  parse_sdp_line (lit "a=rtcp:" ++ v) n =
    Err (PLine (AddressTypeMismatch (ip_family i) t) (lit "a=rtcp:" ++ v) n).
Proof.
  intros v port net ty addr more x t i n W Hp Hn Ht R N.
  change (lit "a=rtcp:" ++ v) with (lit "a=" ++ lit "rtcp" ++ 58 :: v).
  rewrite (attr_eq (lit "rtcp") parse_rtcp); [|reflexivity..|eexists _, _; split; reflexivity].
  unfold parse_rtcp. rewrite sws_trim. rewrite (proj1 (words_sws _ _) W).
  apply p_u16_iff in Hp. rewrite Hp. cbn [bind].
  rewrite (proj2 (network_iff net tt) Hn). cbn [bind].
  rewrite (proj2 (addr_type_iff ty t) Ht). cbn [bind].
  rewrite (typed_mismatch _ _ _ R N). reflexivity.
Qed.
End WithExt.

(** * Lemmas for C53: what the printer writes is derived by the grammar *)
From Coq Require Import List NArith ZArith Lia Bool Ascii String.
From Coq Require Import ZifyBool ZifyNat ZifyN.
From Verif Require Import Str Num Net Types Ext Show Address AttrParse Media Session.
From Verif Require Import SpecApi SpecDoc SpecVal SpecItems SpecPrint SpecGrammar.
From Verif Require Import StrLemmas NumLemmas NetLemmas PVal PVal2 PVal8 PVal9.
Import ListNotations.
Open Scope N_scope.
Open Scope list_scope.

(** ** Derivations *)
Lemma g_lit : forall s t, of_string s = t -> gen (Lit s) t.
Proof. intros s t <-. constructor. Qed.
Lemma g_cat : forall a b s t u, gen a s -> gen b t -> u = s ++ t -> gen (Cat a b) u.
Proof. intros a b s t u A B ->. constructor; assumption. Qed.
Lemma g_opt_none : forall a t, t = [] -> gen (opt a) t.
Proof. intros a t ->. apply gen_or_left, g_lit. reflexivity. Qed.
Lemma g_opt_some : forall a t, gen a t -> gen (opt a) t.
Proof. intros a t H. apply gen_or_right, H. Qed.
Lemma g_many : forall a l, Forall (gen a) l -> gen (Many a) (List.concat l).
Proof. intros a l H. induction H; cbn [List.concat]; constructor; assumption. Qed.
Lemma g_many_map : forall {A} a (f : A -> str) l, Forall (fun x => gen a (f x)) l ->
  gen (Many a) (flat_map f l).
Proof. intros A a f l H. induction H; cbn [flat_map]; constructor; assumption. Qed.
Lemma g_chars : forall P t, Forall P t -> gen (Many (Chr P)) t.
Proof.
  intros P t H. induction H as [|c t Hc _ IH]; [constructor|].
  change (c :: t) with ([c] ++ t). constructor; [constructor; exact Hc | exact IH].
Qed.
Lemma g_chars1 : forall P t, t <> [] -> Forall P t -> gen (many1 (Chr P)) t.
Proof.
  intros P t Ht H. destruct H as [|c t Hc H]; [congruence|].
  change (c :: t) with ([c] ++ t). constructor; [constructor; exact Hc | apply g_chars, H].
Qed.
Lemma g_join : forall s a l, l <> [] -> Forall (gen a) l -> gen (list_of s a) (join (of_string s) l).
Proof.
  intros s a l Hl H. destruct H as [|x l Hx H]; [congruence|]. clear Hl. unfold list_of.
  assert (K : forall l, Forall (gen a) l ->
    gen (Many (Cat (Lit s) a)) (flat_map (fun y => of_string s ++ y) l)).
  { intros l' H'. apply g_many_map. eapply Forall_impl; [|exact H']. intros y Hy.
    constructor; [constructor | exact Hy]. }
  apply (g_cat _ _ x (flat_map (fun y => of_string s ++ y) l)); [exact Hx | apply K, H |].
  clear Hx H K. revert x. induction l as [|y l IH]; intro x; cbn [join flat_map];
    [symmetry; apply app_nil_r |].
  rewrite <- app_assoc. do 2 f_equal. exact (IH y).
Qed.
Lemma g_times : forall a l, Forall (gen a) l -> gen (times (List.length l) a) (List.concat l).
Proof.
  intros a l H. induction H; cbn [List.length times List.concat]; [apply g_lit; reflexivity|].
  constructor; assumption.
Qed.
(** Derivations from one alternative of many. *)
Lemma g_alt : forall l a b t, In b (a :: l) -> gen b t -> gen (alt a l) t.
Proof.
  induction l as [|c l IH]; intros a b t Hin Hb; cbn [alt].
  - destruct Hin as [->|[]]. exact Hb.
  - destruct Hin as [->|Hin]; [apply gen_or_left, Hb | apply gen_or_right, (IH c b t Hin Hb)].
Qed.
Lemma g_lits : forall l s, In s l -> forall t, of_string s = t -> gen (lits l) t.
Proof.
  intros [|a l] s Hin t Ht; [destruct Hin|]. unfold lits.
  apply (g_alt (map Lit l) (Lit a) (Lit s)); [|apply g_lit, Ht].
  destruct Hin as [->|Hin]; [left; reflexivity | right; apply in_map, Hin].
Qed.
Lemma g_word : forall l t, existsb (fun s => str_eqb (of_string s) t) l = true -> gen (lits l) t.
Proof.
  intros l t H. apply existsb_exists in H. destruct H as (s & I & H). apply str_eqb_eq in H.
  exact (g_lits l s I t H).
Qed.
Lemma g_such : forall a (P : str -> Prop) t, gen a t -> P t -> gen (Such a P) t.
Proof. intros. constructor; assumption. Qed.

(** ** Numbers *)
Lemma dec_value_show : forall n, dec_value (show_N n) = n.
Proof.
  intro n. destruct (numeral_printed n n (N.le_refl n)) as (ds & H & _ & D & V & _).
  destruct H as [H|H]; [rewrite H; symmetry; exact V|].
  pose proof (show_N_chars n) as C. rewrite H in C. cbn in C. discriminate C.
Qed.
Lemma g_number : forall n, gen number (show_N n).
Proof.
  intro n. unfold number, show_N.
  destruct (show_radix_spec digit_lower 10 n ltac:(lia)) as (ds & E & F & V & NE & [L|(d & ds' & -> & P)]);
    rewrite E.
  - destruct ds as [|d [|? ?]]; try discriminate L. apply Forall_inv in F. cbn [map].
    destruct (N.eq_dec d 0) as [->|Hd]; [apply gen_or_left, g_lit; reflexivity|].
    apply gen_or_right. change [digit_lower d] with ([digit_lower d] ++ []).
    constructor; [|constructor]. constructor. unfold digit_lower. destruct (d <? 10) eqn:K; lia.
  - apply gen_or_right. cbn [map]. change (digit_lower d :: map digit_lower ds') with
      ([digit_lower d] ++ map digit_lower ds'). inversion F as [|? ? Fd F']; subst.
    constructor.
    + constructor. unfold digit_lower. destruct (d <? 10) eqn:K; lia.
    + apply g_chars. apply Forall_map. eapply Forall_impl; [|exact F']. intros x Hx.
      unfold digit_lower. cbv beta in *. destruct (x <? 10) eqn:K; lia.
Qed.
Lemma g_upto : forall max n, n <= max -> gen (upto max number) (show_N n).
Proof. intros max n H. apply g_such; [apply g_number | rewrite dec_value_show; exact H]. Qed.
Lemma lower_hex_char : forall d, d < 16 -> 48 <= digit_lower d <= 57 \/ 97 <= digit_lower d <= 102.
Proof. intros d H. unfold digit_lower. destruct (d <? 10) eqn:K; lia. Qed.
Lemma show_hex_lower : forall n, Forall (fun c => 48 <= c <= 57 \/ 97 <= c <= 102) (show_hex n).
Proof.
  intro n. unfold show_hex.
  destruct (show_radix_spec digit_lower 16 n ltac:(lia)) as (ds & E & F & _). rewrite E.
  apply Forall_map. eapply Forall_impl; [|exact F]. intros d H. apply lower_hex_char, H.
Qed.
Lemma singles : forall (s : str), List.concat (map (fun c => [c]) s) = s.
Proof. induction s as [|c s IH]; [reflexivity|]. cbn. f_equal. exact IH. Qed.
Lemma g_times_chars : forall P t, Forall P t -> gen (times (List.length t) (Chr P)) t.
Proof.
  intros P t H. rewrite <- (singles t) at 2. rewrite <- (map_length (fun c : N => [c]) t).
  apply g_times. apply Forall_map. eapply Forall_impl; [|exact H]. intros c Hc. constructor. exact Hc.
Qed.
Lemma g_profile : forall n, n <= 16777215 -> gen (times 6 lower_hex) (pad0 6 (show_hex n)).
Proof.
  intros n H. assert (L : List.length (pad0 6 (show_hex n)) = 6%nat).
  { apply pad0_length. apply show_radix_length; [lia | lia | change (16 ^ N.of_nat 6) with 16777216; lia]. }
  rewrite <- L at 1. apply g_times_chars. unfold pad0. apply Forall_app. split; [|apply show_hex_lower].
  apply Forall_forall. intros c Hc. apply repeat_spec in Hc. subst c. lia.
Qed.
Lemma g_h16 : forall n, n <= 65535 -> gen r_h16 (show_hex n).
Proof.
  intros n H. pose proof (show_radix_length digit_lower 16 n 4 ltac:(lia) ltac:(lia)
    ltac:(change (16 ^ N.of_nat 4) with 65536; lia)) as L.
  unfold r_h16, show_hex.
  destruct (show_radix_spec digit_lower 16 n ltac:(lia)) as (ds & E & F & V & NE & C).
  rewrite E in *. rewrite map_length in L.
  assert (K : forall d ds', ds = d :: ds' -> 0 < d ->
    gen (Such (Cat (Chr (fun c => 49 <= c <= 57 \/ 97 <= c <= 102)) (Many lower_hex))
           (fun t => (List.length t <= 4)%nat)) (map digit_lower ds)).
  { intros d ds' -> P. apply g_such; [|rewrite map_length; exact L]. cbn [map].
    change (digit_lower d :: map digit_lower ds') with ([digit_lower d] ++ map digit_lower ds').
    inversion F as [|? ? Fd F']; subst. constructor.
    - constructor. unfold digit_lower. destruct (d <? 10) eqn:K; lia.
    - apply g_chars. apply Forall_map. eapply Forall_impl; [|exact F']. intros x Hx.
      apply lower_hex_char, Hx. }
  destruct C as [L1|(d & ds' & E' & P)]; [|apply gen_or_right, (K d ds' E' P)].
  destruct ds as [|d [|? ?]]; try discriminate L1.
  destruct (N.eq_dec d 0) as [->|Hd]; [apply gen_or_left, g_lit; reflexivity|].
  apply gen_or_right, (K d []); [reflexivity | lia].
Qed.

(** ** Addresses *)
Lemma be_digits_lt : forall k b n, 0 < b -> Forall (fun d => d < b) (be_digits k b n).
Proof.
  induction k as [|k IH]; intros b n H; cbn [be_digits]; [constructor|].
  apply Forall_app. split; [apply IH, H|]. constructor; [|constructor]. apply N.mod_lt. lia.
Qed.
Lemma g_ip4 : forall n, gen r_ip4_address (show_ip4 n).
Proof.
  intro n. unfold show_ip4, octets4.
  pose proof (be_digits_lt 4 256 n ltac:(lia)) as F. pose proof (be_digits_length 4 256 n) as L.
  destruct (be_digits 4 256 n) as [|a [|b [|c [|d [|? ?]]]]]; try discriminate L.
  inversion F as [|? ? Ha F1]; subst. inversion F1 as [|? ? Hb F2]; subst.
  inversion F2 as [|? ? Hc F3]; subst. inversion F3 as [|? ? Hd _]; subst.
  unfold r_ip4_address. cbn [map join cats].
  repeat (apply gen_cat; [first [apply g_upto; lia | apply g_lit; reflexivity] |]).
  apply g_upto. lia.
Qed.
Lemma g_groups : forall l, Forall (fun g => g <= 65535) l -> gen (r_groups (List.length l)) (fmt_subslice l).
Proof.
  intros l H. unfold fmt_subslice. destruct H as [|g l Hg H]; [apply g_lit; reflexivity|].
  cbn [List.length r_groups map].
  eapply (g_cat _ _ (show_hex g) (List.concat (map (fun x => [58] ++ show_hex x) l)));
    [apply g_h16, Hg | |].
  - rewrite <- (map_length (fun x => [58] ++ show_hex x) l). apply g_times. apply Forall_map.
    eapply Forall_impl; [|exact H]. intros x Hx.
    apply gen_cat; [apply g_lit; reflexivity | apply g_h16, Hx].
  - clear. revert g. induction l as [|y l IH]; intro g; cbn [map join List.concat]; [symmetry; apply app_nil_r|].
    rewrite <- app_assoc. do 2 f_equal. exact (IH y).
Qed.
Lemma g_compressed : forall r k a, (k <= r)%nat ->
  forall t, gen (cats [r_groups a; Lit "::"; r_groups k]) t -> gen (r_compressed a r) t.
Proof.
  induction r as [|r IH]; intros k a H t G; cbn [r_compressed].
  - replace k with 0%nat in G by lia. exact G.
  - destruct (Nat.eq_dec k (S r)) as [->|N]; [apply gen_or_left, G | apply gen_or_right, (IH k a ltac:(lia) t G)].
Qed.
Lemma g_ip6_plain : forall segs, Forall (fun g => g <= 65535) segs -> List.length segs = 8%nat ->
  gen r_ip6_address (show_ip6_plain segs).
Proof.
  intros segs H HL. unfold show_ip6_plain.
  set (z := zero_span 0 segs _ _).
  destruct (Nat.ltb 1 (sp_len z)) eqn:Ez.
  2: { unfold r_ip6_address. eapply g_alt; [left; reflexivity|]. rewrite <- HL. apply g_groups, H. }
  apply Nat.ltb_lt in Ez.
  destruct (zero_span_ok segs 0 {| sp_start := 0; sp_len := 0 |} {| sp_start := 0; sp_len := 0 |}
              [] segs eq_refl eq_refl (or_introl eq_refl) (or_introl eq_refl)) as [K|[a [b [K1 K2]]]];
    fold z in K || fold z in K1, K2; [lia|].
  assert (L1 : firstn (sp_start z) segs = a).
  { rewrite K1, <- K2. rewrite firstn_app, Nat.sub_diag, firstn_all. simpl. apply app_nil_r. }
  assert (L2 : skipn (sp_start z + sp_len z) segs = b).
  { rewrite K1, app_assoc. rewrite skipn_app.
    rewrite skipn_all2 by (rewrite app_length, repeat_length; lia).
    rewrite app_length, repeat_length.
    replace (sp_start z + sp_len z - (List.length a + sp_len z))%nat with 0%nat by lia.
    reflexivity. }
  rewrite L1, L2. assert (HF : Forall (fun g => g <= 65535) (a ++ repeat 0 (sp_len z) ++ b))
    by (rewrite <- K1; auto).
  apply Forall_app in HF. destruct HF as [Fa HF]. apply Forall_app in HF. destruct HF as [_ Fb].
  assert (HL2 : List.length (a ++ repeat 0 (sp_len z) ++ b) = 8%nat) by (rewrite <- K1; auto).
  rewrite !app_length, repeat_length in HL2.
  assert (G : gen (cats [r_groups (List.length a); Lit "::"; r_groups (List.length b)])
                (fmt_subslice a ++ lit "::" ++ fmt_subslice b)).
  { cbn [cats]. constructor; [apply g_groups, Fa|]. apply gen_cat; [apply g_lit; reflexivity | apply g_groups, Fb]. }
  assert (A : (List.length a <= 6)%nat) by lia.
  assert (B : (List.length b <= 6 - List.length a)%nat) by lia.
  pose proof (g_compressed _ _ _ B _ G) as G2. clear -A G2.
  unfold r_ip6_address. eapply g_alt; [right | exact G2].
  destruct (List.length a) as [|[|[|[|[|[|[|n]]]]]]]; cbn [Nat.sub];
    [..|lia]; cbn [In]; tauto.
Qed.
Lemma g_ip6 : forall n, gen r_ip6_address (show_ip6 n).
Proof.
  intro n. destruct (show_ip6_cases n) as [(ab & cd & _ & Q) | Q]; rewrite Q.
  - unfold r_ip6_address. eapply g_alt; [do 8 right; left; reflexivity|].
    apply gen_cat; [apply g_lit; reflexivity | apply g_ip4].
  - apply g_ip6_plain; [|apply be_digits_length].
    eapply Forall_impl; [|exact (be_digits_lt 8 65536 n ltac:(lia))]. intros x Hx. cbv beta in *. lia.
Qed.

Section WithExt.
Context {E : Ext} (X : ext_ok E).

Lemma g_host : forall d, domain d -> gen r_host_name d.
Proof.
  intros d H. destruct (host_domain_chars _ X _ _ H) as [N C]. apply g_chars1; [exact N|].
  apply Forall_forall. intros c Hc. exact (proj1 (forallb_forall _ _) C c Hc).
Qed.
Lemma g_address : forall a, address_wf a -> gen r_address (show_address a).
Proof.
  intros [d|[n|n]] H; cbn [show_address show_ip].
  - eapply g_alt; [do 2 right; left; reflexivity | apply g_host, H].
  - eapply g_alt; [left; reflexivity | apply g_ip4].
  - eapply g_alt; [right; left; reflexivity | apply g_ip6].
Qed.
Lemma g_typed : forall a, typed_wf a -> gen r_typed_address (show_typed_address a).
Proof.
  intros [t d|[n|n]] H; unfold show_typed_address; cbn [typed_addr_type ip_addr_type show_ip show_addr_type].
  - eapply g_alt; [do 2 right; left; reflexivity|]. cbn [cats].
    apply (g_cat _ _ (lit "IN IP") ((match t with IpV4 => lit "4" | IpV6 => lit "6" end) ++ sp ++ d));
      [apply g_lit; reflexivity | | destruct t; reflexivity].
    constructor; [|apply gen_cat; [apply g_lit; reflexivity | apply g_host, H]].
    destruct t; apply g_word; reflexivity.
  - eapply g_alt; [left; reflexivity|]. apply (g_cat _ _ (lit "IN IP4 ") (show_ip4 n)); [apply g_lit; reflexivity | apply g_ip4 | reflexivity].
  - eapply g_alt; [right; left; reflexivity|]. apply (g_cat _ _ (lit "IN IP6 ") (show_ip6 n)); [apply g_lit; reflexivity | apply g_ip6 | reflexivity].
Qed.

End WithExt.

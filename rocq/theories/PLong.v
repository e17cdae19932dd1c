(** * Lemmas for C77: errors of lines *)
From Coq Require Import List NArith ZArith Bool Ascii String Lia ZifyBool ZifyNat ZifyN.
From Verif Require Import Str Num Net Types Ext Show Address AttrParse Media Session StrLemmas NumLemmas PPanic PExt0.
Import ListNotations.
Open Scope N_scope.
Open Scope list_scope.
Notation len := (@List.length N).

(** ** Lengths *)
Lemma split_by_len : forall p s x, In x (split_by p s) -> (len x <= len s)%nat.
Proof.
  intros p s. induction s as [|c s IH]; intros x H; cbn [split_by] in H.
  - destruct H as [<-|[]]. lia.
  - destruct (p c); [destruct H as [<-|H]; [cbn; lia | apply IH in H; cbn; lia]|].
    destruct (split_by p s) as [|h t]; [destruct H as [<-|[]]; cbn; lia|].
    destruct H as [<-|H]; [specialize (IH h (or_introl eq_refl)); cbn; lia | specialize (IH x (or_intror H)); cbn; lia].
Qed.
Lemma split_len : forall c s x, In x (split c s) -> (len x <= len s)%nat.
Proof. intros c s x. apply split_by_len. Qed.
Lemma words_len : forall s x, In x (split_whitespace s) -> (len x <= len s)%nat.
Proof. intros s x H. unfold split_whitespace in H. apply filter_In in H. exact (split_by_len _ _ _ (proj1 H)). Qed.
Lemma once_len : forall c s a b, split_once c s = Some (a, b) -> (len a + len b < len s)%nat.
Proof.
  intros c s. induction s as [|x s IH]; intros a b H; cbn [split_once] in H; [discriminate H|].
  destruct (c =? x); [injection H as <- <-; cbn; lia|]. destruct (split_once c s) as [[a' b']|]; [|discriminate H].
  injection H as <- <-. specialize (IH _ _ eq_refl). cbn. lia.
Qed.
Lemma splitn_len : forall n c s x, In x (splitn n c s) -> (len x <= len s)%nat.
Proof.
  intros n c. induction n as [|n IH]; intros s x H; [destruct H|]. cbn [splitn] in H. destruct n as [|n].
  - destruct H as [<-|[]]. lia.
  - destruct (split_once c s) as [[a b]|] eqn:Q; [|destruct H as [<-|[]]; lia]. apply once_len in Q.
    destruct H as [<-|H]; [lia|]. apply IH in H. lia.
Qed.
Lemma lower_len : forall s, len (to_lower s) = len s.
Proof. intro s. unfold to_lower. induction s as [|c s IH]; [reflexivity|]. cbn [flat_map]. rewrite app_length, IH. unfold lower_char. destruct ((65 <=? c) && (c <=? 90)); [reflexivity|]. destruct (c =? 8490); reflexivity. Qed.
Lemma debug_char_len : forall c, (len (debug_char c) <= 6)%nat.
Proof. intro c. unfold debug_char. repeat match goal with |- context [if ?b then _ else _] => destruct b end; cbn; lia. Qed.
Lemma debug_len : forall s, (len (debug_str s) <= 6 * len s + 2)%nat.
Proof.
  intro s. unfold debug_str. cbn [List.length]. rewrite app_length. cbn [List.length].
  assert (H : (len (flat_map debug_char s) <= 6 * len s)%nat); [|lia]. induction s as [|c s IH]; [cbn; lia|].
  cbn [flat_map List.length]. rewrite app_length. pose proof (debug_char_len c). lia.
Qed.
Lemma debug_upper_len : forall s, (len (debug_str (to_upper s)) <= 6 * len s + 2)%nat.
Proof.
  intro s. unfold debug_str. cbn [List.length]. rewrite app_length. cbn [List.length].
  assert (H : (len (flat_map debug_char (to_upper s)) <= 6 * len s)%nat); [|lia]. unfold to_upper. induction s as [|c s IH]; [cbn; lia|].
  cbn [flat_map List.length]. rewrite flat_map_app, app_length.
  assert (K : (len (flat_map debug_char (upper_char c)) <= 6)%nat); [|lia].
  unfold upper_char. destruct ((97 <=? c) && (c <=? 122)).
  { cbn [flat_map]. rewrite app_nil_r. apply debug_char_len. }
  repeat match goal with |- context [if c =? ?x then _ else _] => destruct (c =? x); [cbn; lia|] end.
  cbn [flat_map]. rewrite app_nil_r. apply debug_char_len.
Qed.
Lemma number_len : forall n, n <= u64_max -> (len (show_N n) <= 20)%nat.
Proof. intros n H. apply show_N_short; [|lia]. eapply N.le_lt_trans; [exact H|]. reflexivity. Qed.
Lemma count_len : forall k, (len (show_N (N.of_nat k)) <= S k)%nat.
Proof.
  intro k. apply show_N_short; [|lia]. induction k as [|k IH]; [reflexivity|].
  rewrite (Nat2N.inj_succ (S k)), N.pow_succ_r'. generalize dependent (10 ^ N.of_nat (S k)). intros p IH. lia.
Qed.
Lemma fmt_len : forall t args, (len (fmt t args) <= len (of_string t) + list_sum (map len args))%nat.
Proof.
  intro t. unfold fmt. generalize (of_string t). clear t. intro t.
  assert (G : forall k t args, (len t <= k)%nat -> (len (fmt_chars t args) <= len t + list_sum (map len args))%nat).
  { clear t. intro k. induction k as [|k IH]; intros t args H.
    - destruct t; [cbn; lia | cbn in H; lia].
    - assert (X : forall x r, t = x :: r -> fmt_chars t args = x :: fmt_chars r args -> (len (fmt_chars t args) <= len t + list_sum (map len args))%nat).
      { intros x r -> ->. cbn [List.length] in *. specialize (IH r args ltac:(lia)). lia. }
      destruct (list_eq_dec N.eq_dec (firstn 2 t) [123; 125]) as [D|D].
      + destruct t as [|x [|y t]]; try discriminate D. injection D as -> ->. cbn [fmt_chars]. cbn [List.length] in H. destruct args as [|a args].
        * specialize (IH t [] ltac:(lia)). cbn [List.length map list_sum fold_right] in *. lia.
        * specialize (IH t args ltac:(lia)). rewrite app_length. cbn [List.length map] in *. change (list_sum (len a :: map len args)) with (len a + list_sum (map len args))%nat. lia.
      + destruct t as [|x t]; [cbn; lia|]. apply (X x t); [reflexivity|].
        cbn [fmt_chars]. destruct t as [|y t].
        { repeat match goal with |- context [match ?z with _ => _ end] => is_var z; destruct z end; reflexivity. }
        destruct (N.eq_dec x 123) as [->|Nx].
        * destruct (N.eq_dec y 125) as [->|Ny]; [exfalso; apply D; reflexivity|].
          repeat match goal with |- context [match ?z with _ => _ end] => is_var z; destruct z end; first [reflexivity | exfalso; apply Ny; reflexivity].
        * repeat match goal with |- context [match ?z with _ => _ end] => is_var z; destruct z end; first [reflexivity | exfalso; apply Nx; reflexivity | idtac]. }
  intros args. apply (G (len t)). lia.
Qed.

(** ** Errors no longer than [M] *)
Definition small {A} (M : nat) (x : res ierr A) : Prop := forall e, x = Err e -> (len (show_ierr e) <= M)%nat.
Lemma small_ok : forall A M (a : A), small M (Ok a).
Proof. intros A M a e H. discriminate H. Qed.
Lemma small_panic : forall A M, small (A:=A) M Panic.
Proof. intros A M e H. discriminate H. Qed.
Lemma small_err : forall A M e, (len (show_ierr e) <= M)%nat -> small (A:=A) M (Err e).
Proof. intros A M e L e' H. injection H as <-. exact L. Qed.
Lemma small_bind : forall A B M (x : res ierr A) (f : A -> res ierr B), small M x -> (forall a, x = Ok a -> small M (f a)) -> small M (bind x f).
Proof. intros A B M x f H K e Q. destruct x as [a|e0|]; cbn [bind] in Q; [exact (K a eq_refl e Q) | injection Q as <-; exact (H e0 eq_refl) | discriminate Q]. Qed.
Lemma small_mapM : forall A B M (f : A -> res ierr B) l, (forall x, In x l -> small M (f x)) -> small M (mapM f l).
Proof.
  intros A B M f l. induction l as [|x l IH]; intro H; cbn [mapM]; [apply small_ok|].
  apply small_bind; [apply H; left; reflexivity|]. intros y _. apply small_bind; [apply IH; intros; apply H; right; assumption|]. intros. apply small_ok.
Qed.
Lemma small_foldM : forall A B M (f : B -> A -> res ierr B) l acc, (forall b x, In x l -> small M (f b x)) -> small M (foldM f l acc).
Proof.
  intros A B M f l. induction l as [|x l IH]; intros acc H; cbn [foldM]; [apply small_ok|].
  apply small_bind; [apply H; left; reflexivity|]. intros. apply IH. intros. apply H. right. assumption.
Qed.
Lemma small_idx : forall A M (l : list A) i, small M (idx l i).
Proof. intros A M l i e H. unfold idx in H. destruct (nth_error l i); discriminate H. Qed.
Lemma idx_in : forall {E A} (l : list A) i x, idx (E:=E) l i = Ok x -> In x l.
Proof. intros E A l i x H. unfold idx in H. destruct (nth_error l i) eqn:Q; [|discriminate H]. injection H as <-. exact (nth_error_In _ _ Q). Qed.

Lemma words_all : forall s, Forall (fun x => (len x <= len s)%nat) (split_whitespace s).
Proof. intro s. apply Forall_forall. intros x. apply words_len. Qed.
Lemma split_all : forall c s, Forall (fun x => (len x <= len s)%nat) (split c s).
Proof. intros c s. apply Forall_forall. intros x. apply split_len. Qed.
Lemma splitn_all : forall n c s, Forall (fun x => (len x <= len s)%nat) (splitn n c s).
Proof. intros n c s. apply Forall_forall. intros x. apply splitn_len. Qed.
Lemma skipn_all : forall A (P : A -> Prop) n l, Forall P l -> Forall P (skipn n l).
Proof. intros A P n l H. rewrite Forall_forall in *. intros x I. apply H. rewrite <- (firstn_skipn n l). apply in_or_app. right. exact I. Qed.
Lemma forall_in : forall A (P : A -> Prop) l x, Forall P l -> In x l -> P x.
Proof. intros A P l x H. rewrite Forall_forall in H. apply H. Qed.

Section WithExt.
Context {E : Ext}.
(** What the host parser says is short. *)
Context (B : nat) (HB : forall s m, host_parse s = Err m -> (len (show_ierr (EDomain m)) <= 200 + B)%nat).
Context (M : nat) (HM : (200 + B <= M)%nat).
Notation sm := (small M).

Lemma up : forall k, (k <= 200)%nat -> (k <= M)%nat.
Proof. intros k H. lia. Qed.
Lemma uint_small : forall r mx s, sm (res_map_err EInteger (parse_uint r mx s)).
Proof.
  intros r mx s e Q. destruct (parse_uint r mx s) as [n|k|]; try discriminate Q. injection Q as <-. apply up. destruct k; vm_compute; lia.
Qed.
Lemma uint_le : forall r mx s n, 1 <= r -> res_map_err EInteger (parse_uint r mx s) = Ok n -> n <= mx.
Proof.
  intros r mx s n R Q. destruct (parse_uint r mx s) as [m|k|] eqn:P; try discriminate Q. injection Q as <-.
  apply (parse_uint_spec r mx s m R) in P. destruct P as (a & b & d & P). tauto.
Qed.
Lemma p_u8_small : forall s, sm (p_u8 s). Proof. intro s. apply uint_small. Qed.
Lemma p_u16_small : forall s, sm (p_u16 s). Proof. intro s. apply uint_small. Qed.
Lemma p_u32_small : forall s, sm (p_u32 s). Proof. intro s. apply uint_small. Qed.
Lemma p_u64_small : forall s, sm (p_u64 s). Proof. intro s. apply uint_small. Qed.
Lemma p_f32_small : forall s, sm (p_f32 s).
Proof. intros s e Q. unfold p_f32 in Q. destruct (parse_f32 s) as [n|k|]; try discriminate Q. injection Q as <-. apply up. destruct k; vm_compute; lia. Qed.
Lemma p_f64_small : forall s, sm (p_f64 s).
Proof. intros s e Q. unfold p_f64 in Q. destruct (parse_f64 s) as [n|k|]; try discriminate Q. injection Q as <-. apply up. destruct k; vm_compute; lia. Qed.
Lemma string_or_empty_is : forall s r, string_or_empty s = Ok r -> r = s.
Proof. intros s r H. unfold string_or_empty in H. destruct (is_empty s); [discriminate H | injection H as <-; reflexivity]. Qed.
Lemma genf_small : forall A t args, (27 + len (of_string t) + list_sum (map len args) <= M)%nat -> small (A:=A) M (Err (genf t args)).
Proof. intros A t args H. apply small_err. cbn [show_ierr]. rewrite app_length. pose proof (fmt_len t args). change (len (lit "Parsing error: ")) with 15%nat. lia. Qed.
Lemma unsupf_small : forall A t args, (27 + len (of_string t) + list_sum (map len args) <= M)%nat -> small (A:=A) M (Err (unsupf t args)).
Proof. intros A t args H. apply small_err. cbn [show_ierr]. rewrite app_length. pose proof (fmt_len t args). change (len (lit "Unsupported parsing error: ")) with 27%nat. lia. Qed.

Ltac sat_step :=
  match goal with
  | H : idx _ _ = Ok _ |- _ => apply idx_in in H
  | H : ok_or (nth_error ?l ?i) _ = Ok ?x |- _ => unfold ok_or in H
  | H : match nth_error ?l ?i with Some _ => _ | None => _ end = Ok _ |- _ => destruct (nth_error l i) eqn:?; [injection H as H; subst|discriminate H]
  | H : nth_error _ _ = Some _ |- _ => apply nth_error_In in H
  | H : string_or_empty _ = Ok _ |- _ => apply string_or_empty_is in H; subst
  | H : In ?x (split_whitespace ?s) |- _ => apply words_len in H
  | H : In ?x (split ?c ?s) |- _ => apply split_len in H
  | H : In ?x (splitn ?n ?c ?s) |- _ => apply splitn_len in H
  | H : In ?x (skipn ?n (split_whitespace ?s)) |- _ => apply (forall_in _ _ _ _ (skipn_all _ _ n _ (words_all s))) in H; cbv beta in H
  | H : In ?x (skipn ?n (split ?c ?s)) |- _ => apply (forall_in _ _ _ _ (skipn_all _ _ n _ (split_all c s))) in H; cbv beta in H
  | H : split_whitespace ?s = _ |- _ => let Z := fresh "Z" in pose proof (words_all s) as Z; rewrite H in Z; clear H
  | H : split ?c ?s = _ |- _ => let Z := fresh "Z" in pose proof (split_all c s) as Z; rewrite H in Z; clear H
  | H : splitn ?n ?c ?s = _ |- _ => let Z := fresh "Z" in pose proof (splitn_all n c s) as Z; rewrite H in Z; clear H
  | H : Forall _ (_ :: _) |- _ => let Z := fresh "Z" in apply Forall_cons_iff in H; destruct H as [Z H]; cbv beta in Z
  | H : Forall _ ?l, K : In ?x ?l |- _ => apply (forall_in _ _ _ _ H) in K; cbv beta in K
  | H : p_u64 _ = Ok _ |- _ => apply (uint_le 10 u64_max _ _ ltac:(lia)), number_len in H
  end.
Ltac sat := repeat sat_step.
Ltac meas := unfold list_sum; cbn [map fold_right];
  repeat match goal with |- context [len (of_string ?t)] => let v := eval vm_compute in (len (of_string t)) in change (len (of_string t)) with v end;
  repeat match goal with
  | |- context [len (debug_str (to_upper ?x))] => let Q := fresh in pose proof (debug_upper_len x) as Q; revert Q; generalize (len (debug_str (to_upper x))); intros
  | |- context [len (debug_str ?x)] => let Q := fresh in pose proof (debug_len x) as Q; revert Q; generalize (len (debug_str x)); intros
  | |- context [len (show_N (N.of_nat ?x))] => let Q := fresh in pose proof (count_len x) as Q; revert Q; generalize (len (show_N (N.of_nat x))); intros
  end; rewrite ?lower_len.
Ltac err := first
  [ apply small_err, up; vm_compute; lia
  | first [apply genf_small | apply unsupf_small]; meas; sat; lia ].
Ltac sm_step :=
  match goal with
  | |- small _ (Ok _) => apply small_ok
  | |- small _ Panic => apply small_panic
  | |- small _ (Err _) => err
  | |- small _ (p_u8 _) => apply p_u8_small
  | |- small _ (p_u16 _) => apply p_u16_small
  | |- small _ (p_u32 _) => apply p_u32_small
  | |- small _ (p_u64 _) => apply p_u64_small
  | |- small _ (p_f32 _) => apply p_f32_small
  | |- small _ (p_f64 _) => apply p_f64_small
  | |- small _ (res_map_err EInteger (parse_uint _ _ _)) => apply uint_small
  | |- small _ (bind _ _) => apply small_bind; [|intros ? ?]
  | |- small _ (ok_or _ _) => unfold ok_or
  | |- small _ (mapM _ _) => apply small_mapM; intros ? ?
  | |- small _ (foldM _ _ _) => apply small_foldM; intros ? ? ?
  | |- small _ (up_to _ _ _) => unfold up_to
  | |- small _ (idx _ _) => apply small_idx
  | |- small _ (let _ := _ in _) => cbv zeta
  | |- small _ (match ?x with _ => _ end) => destruct x eqn:?
  end.
Ltac room := first [assumption | sat; lia].
Notation fits s := (6 * len s + 200 + B <= M)%nat.

Lemma string_or_empty_small : forall s, sm (string_or_empty s).
Proof. intros. unfold string_or_empty. repeat sm_step. Qed.
Lemma payload_small : forall s, sm (parse_payload_type s).
Proof. intros. unfold parse_payload_type. repeat sm_step. Qed.
Lemma direction_small : forall s, fits s -> sm (parse_single_direction s).
Proof. intros. unfold parse_single_direction. repeat sm_step. Qed.
Lemma address_small : forall s, sm (address_from_str s).
Proof.
  intros s. unfold address_from_str. pose proof (HB s) as D. destruct (contains c_colon s).
  - destruct (parse_ip s); [apply small_ok|]. destruct (host_parse s); [apply small_ok | err | apply small_panic].
  - destruct (host_parse s) as [h|m|]; [apply small_ok | | apply small_panic]. apply small_err. specialize (D m eq_refl). lia.
Qed.
Lemma typed_small : forall t s, sm (typed_address_try_from t s).
Proof. intros. unfold typed_address_try_from. apply small_bind; [apply address_small|]. intros a _. destruct a as [d|i]; [apply small_ok|]. destruct (negb _); [|apply small_ok]. apply small_err, up. destruct i, t; vm_compute; lia. Qed.
Lemma network_type_small : forall s, sm (parse_network_type s).
Proof. intros. unfold parse_network_type. repeat sm_step. Qed.
Lemma addr_type_small : forall s, fits s -> sm (addr_type_from_str s).
Proof. intros s H. unfold addr_type_from_str. destruct (assoc_str _ _); [apply small_ok|]. apply small_err. cbn [show_ierr]. rewrite app_length. change (len (lit "Unknown address type: ")) with 22%nat. lia. Qed.
Lemma mapped_small : forall A F (f : F -> ierr) (x : res F A), (forall e, (len (show_ierr (f e)) <= M)%nat) -> sm (res_map_err f x).
Proof. intros A F f x H e Q. destruct x; try discriminate Q. injection Q as <-. apply H. Qed.
Lemma address_type_small : forall s, sm (parse_address_type s).
Proof. intros. unfold parse_address_type. apply mapped_small. intros _. apply up. vm_compute. lia. Qed.
Ltac s2 :=
  match goal with
  | |- small _ (string_or_empty _) => apply string_or_empty_small
  | |- small _ (parse_payload_type _) => apply payload_small
  | |- small _ (parse_single_direction _) => apply direction_small; room
  | |- small _ (address_from_str _) => apply address_small
  | |- small _ (parse_unicast_address _) => apply address_small
  | |- small _ (typed_address_try_from _ _) => apply typed_small
  | |- small _ (parse_network_type _) => apply network_type_small
  | |- small _ (addr_type_from_str _) => apply addr_type_small; room
  | |- small _ (parse_address_type _) => apply address_type_small
  | _ => sm_step
  end.
Lemma ssrc_set_small : forall a s, sm (ssrc_set_attribute a s).
Proof. intros a s. unfold ssrc_set_attribute. repeat s2. Qed.
Lemma ssrc__small : forall s, sm (parse_ssrc_ s).
Proof. intros. unfold parse_ssrc_. repeat (apply ssrc_set_small || s2). Qed.
Lemma ssrc_small : forall s, sm (parse_ssrc s).
Proof. intros. unfold parse_ssrc. repeat (apply ssrc__small || s2). Qed.
Lemma ssrc_group_small : forall s, fits s -> sm (parse_ssrc_group s).
Proof.
  intros. unfold parse_ssrc_group. repeat (apply ssrc_small || s2).
Qed.
Lemma sctp_port_small : forall s, fits s -> sm (parse_sctp_port s).
Proof. intros. unfold parse_sctp_port. repeat s2. Qed.
Lemma extension_small : forall c n v, sm (candidate_extension c n v).
Proof.
  intros. unfold candidate_extension. cbv zeta.
  repeat match goal with |- small _ (if ?b then _ else _) => destruct b; [repeat s2; fail|] end. repeat s2.
Qed.
Lemma extensions_small : forall l c, sm (candidate_extensions c l).
Proof.
  intros l. assert (G : forall n l c, (List.length l <= n)%nat -> sm (candidate_extensions c l)).
  { clear l. induction n as [|n IH]; intros l c H.
    - destruct l; [apply small_ok|cbn in H; lia].
    - destruct l as [|a [|b l]]; cbn [candidate_extensions]; [apply small_ok | err |].
      apply small_bind; [apply extension_small|]. intros. apply IH. cbn in H. lia. }
  intros c. apply (G (List.length l)). lia.
Qed.
Lemma candidate_small : forall s, sm (parse_candidate s).
Proof. intros. unfold parse_candidate. cbv zeta. repeat (apply extensions_small || s2). Qed.
Lemma dtls_small : forall s, fits s -> sm (parse_dtls_message s).
Proof. intros. unfold parse_dtls_message. cbv zeta. repeat s2. Qed.
Lemma extmap_small : forall s, fits s -> sm (parse_extmap s).
Proof. intros. unfold parse_extmap. cbv zeta. repeat s2. Qed.
Lemma mapM_count : forall A F (f : A -> res ierr F) l r, mapM f l = Ok r -> List.length r = List.length l.
Proof.
  intros A F f l. induction l as [|x l IH]; intros r H; cbn [mapM] in H; [injection H as <-; reflexivity|].
  apply bind_ok in H. destruct H as [y [_ H]]. apply bind_ok in H. destruct H as [ys [K H]]. injection H as <-. cbn. rewrite (IH _ K). reflexivity.
Qed.
Lemma split_count : forall c s, (List.length (split c s) <= S (len s))%nat.
Proof. intros c s. pose proof (total_split c s) as H. rewrite <- H. generalize (split c s). intro l. induction l as [|x l IH]; [cbn; lia|]. rewrite total_cons. cbn [List.length]. lia. Qed.
Lemma octets_count : forall h s b, parse_octets h s = Ok b -> List.length b = octet_count h.
Proof.
  intros h s b H. unfold parse_octets in H. apply bind_ok in H. destruct H as [l [_ H]]. destruct (Nat.eqb (List.length l) (octet_count h)) eqn:Q; [|discriminate H].
  injection H as <-. apply Nat.eqb_eq. exact Q.
Qed.
Lemma octets_small : forall h s, fits s -> sm (parse_octets h s).
Proof.
  intros h s H. unfold parse_octets. apply small_bind; [repeat s2|]. intros l Q. destruct (negb _); [|apply small_ok].
  apply genf_small. apply mapM_count in Q. pose proof (split_count c_colon s). meas.
  assert (octet_count h <= 64)%nat by (destruct h; cbn; lia).
  lia.
Qed.
Lemma fingerprint_small : forall s, fits s -> sm (parse_fingerprint s).
Proof.
  intros s H. unfold parse_fingerprint. cbv zeta. destruct (negb _); [err|].
  apply small_bind; [apply small_idx|intros]. apply small_bind; [unfold hash_type_from_name; repeat s2|intros].
  apply small_bind; [apply small_idx|intros]. apply small_bind; [apply octets_small; room|intros b Q].
  apply octets_count in Q. apply small_bind; [|intros; apply small_ok]. unfold fingerprint_try_from. rewrite Q, Nat.eqb_refl. apply small_ok.
Qed.
Lemma bool_small : forall a b, (len b <= 30)%nat -> sm (fmtp_parse_bool a b).
Proof. intros. unfold fmtp_parse_bool. repeat s2. Qed.
Lemma fmtp_parameter_small : forall p tok, sm (fmtp_parameter p tok).
Proof.
  intros. unfold fmtp_parameter. destruct (splitn 2 c_eq tok) as [|name [|val [|]]]; try err. cbv zeta.
  repeat match goal with |- small _ (if ?b then _ else _) => destruct b; [repeat ((apply bool_small; cbn; lia) || s2); fail|] end.
  repeat s2.
Qed.
Lemma fmtp_block_small : forall p tok, sm (fmtp_block p tok).
Proof. intros. unfold fmtp_block. destruct (contains c_eq tok); [|repeat s2]. apply small_foldM. intros. apply fmtp_parameter_small. Qed.
Lemma fmtp_small : forall s, sm (parse_fmtp s).
Proof. intros. unfold parse_fmtp. cbv zeta. repeat (apply fmtp_block_small || s2). Qed.
Lemma framerate_small : forall s, sm (parse_framerate s).
Proof. intros. unfold parse_framerate. repeat s2. Qed.
Lemma group_small : forall s, fits s -> sm (parse_group s).
Proof. intros. unfold parse_group. repeat s2. Qed.
Lemma ice_options_small : forall s, sm (parse_ice_options s).
Proof. intros. unfold parse_ice_options. repeat s2. Qed.
Lemma ice_pacing_small : forall s, sm (parse_ice_pacing s).
Proof. intros. unfold parse_ice_pacing. repeat s2. Qed.

Lemma loop_small : forall sep l k cur tokens, sm (imageattr_tokens_loop sep k cur tokens l).
Proof.
  intros sep l. induction l as [|t l IH]; intros k cur tokens; cbn [imageattr_tokens_loop]; [apply small_ok|].
  unfold i32_checked. repeat (apply IH || s2).
Qed.
Lemma tokens_small : forall s sep, sm (parse_imageattr_tokens s sep).
Proof. intros. apply loop_small. Qed.
Lemma braced_small : forall s e, (len (show_ierr e) <= 200)%nat -> sm (braced_token s e).
Proof. intros s e H. unfold braced_token, slice_inner. repeat match goal with |- small _ (Err _) => apply small_err, up, H | _ => s2 end. Qed.
Ltac brace := apply braced_small; vm_compute; lia.
Lemma xyrange_small : forall s, sm (parse_xyrange s).
Proof. intros. unfold parse_xyrange. repeat (brace || s2). Qed.
Lemma ps_range_small : forall s, sm (parse_ps_range s).
Proof. intros. unfold parse_ps_range. repeat s2. Qed.
Lemma ascending_small : forall l x, sm (ascending x l).
Proof. induction l as [|y l IH]; intros x; cbn [ascending]; [apply small_ok|]. destruct (f32_ge x y); [err|apply IH]. Qed.
Lemma sar_small : forall s, sm (parse_sar s).
Proof. intros. unfold parse_sar. repeat (brace || apply ps_range_small || apply ascending_small || s2). Qed.
Lemma par_small : forall s, sm (parse_par s).
Proof. intros. unfold parse_par. repeat (brace || apply ps_range_small || s2). Qed.
Lemma key_small : forall acc t, sm (image_set_key acc t).
Proof. intros [[sar par] q] t. unfold image_set_key. repeat (apply sar_small || apply par_small || s2). Qed.
Lemma image_set_small : forall s, sm (parse_image_set s).
Proof. intros. unfold parse_image_set. repeat (apply tokens_small || apply xyrange_small || apply key_small || s2). Qed.
Lemma set_small : forall s, sm (parse_set s).
Proof. intros. unfold parse_set. repeat (brace || apply image_set_small || s2). Qed.
Lemma more_sets_small : forall l sets, sm (more_sets sets l).
Proof. induction l as [|t l IH]; intros sets; cbn [more_sets]; repeat (apply IH || apply set_small || s2). Qed.
Lemma set_list_small : forall l, sm (parse_image_set_list l).
Proof. intros. unfold parse_image_set_list. repeat (apply set_small || apply more_sets_small || s2). Qed.
Lemma image_attr_small : forall s, fits s -> sm (parse_image_attr s).
Proof.
  intros s H. unfold parse_image_attr. apply small_bind; [apply tokens_small|]. intros l Hl.
  assert (L : forall t, In t l -> fits t) by (intros t I; pose proof (parse_tokens_length _ _ _ _ Hl I); lia).
  destruct l as [|t0 l]; [err|]. apply small_bind; [repeat s2|intros]. destruct l as [|t1 l]; [err|].
  apply small_bind; [apply direction_small, L; right; left; reflexivity|intros].
  apply small_bind; [apply set_list_small|]. intros [fs l'] K1. pose proof (image_set_list_rest _ _ _ K1) as R.
  apply small_bind; [|intros [? [|]]; intros; repeat s2].
  destruct l' as [|d l']; [apply small_ok|]. apply small_bind; [apply direction_small, L; right; right; apply R; left; reflexivity|intros].
  destruct (single_direction_eqb _ _); [err|]. apply set_list_small.
Qed.
Lemma msid_small : forall s, sm (parse_msid s).
Proof. intros. unfold parse_msid. repeat s2. Qed.
Lemma msid_semantic_small : forall s, sm (parse_msid_semantic s).
Proof. intros. unfold parse_msid_semantic. repeat s2. Qed.
Lemma rid_parameter_small : forall a p, sm (rid_parameter a p).
Proof.
  intros [p d] s. unfold rid_parameter. destruct (splitn 2 c_eq s) as [|name [|val [|]]]; try err.
  repeat match goal with |- small _ (if ?b then _ else _) => destruct b; [repeat s2; fail|] end. repeat s2.
Qed.
Lemma rid_small : forall s, fits s -> sm (parse_rid s).
Proof. intros s H. unfold parse_rid. cbv zeta. repeat (apply rid_parameter_small || s2). Qed.
Lemma remote_small : forall s, sm (parse_remote_candidates s).
Proof. intros. unfold parse_remote_candidates. repeat s2. Qed.
Lemma rtpmap_small : forall s, sm (parse_rtpmap s).
Proof. intros. unfold parse_rtpmap. repeat s2. Qed.
Lemma rtcp_small : forall s, fits s -> sm (parse_rtcp s).
Proof. intros. unfold parse_rtcp. repeat s2. Qed.
Lemma fb_parameter_small : forall t x, (forall s, x = Some s -> fits s) -> sm (rtcp_fb_parameter t x).
Proof.
  intros t x H. assert (L : (len (show_rtcp_fb_type t) <= 12)%nat) by (destruct t; cbn; lia).
  destruct x as [x|]; [specialize (H x eq_refl) | clear H]; unfold rtcp_fb_parameter; repeat s2.
Qed.
Lemma rtcp_fb_small : forall s, fits s -> sm (parse_rtcp_fb s).
Proof.
  intros s H. unfold parse_rtcp_fb. cbv zeta.
  repeat ((apply fb_parameter_small; let Q := fresh in intros ? Q; room) || s2).
Qed.
Lemma sctpmap_small : forall s, sm (parse_sctpmap s).
Proof. intros. unfold parse_sctpmap. cbv zeta. repeat s2. Qed.
Lemma setup_small : forall s, sm (parse_setup s).
Proof. intros. unfold parse_setup. repeat s2. Qed.
Lemma version_list_small : forall s, fits s -> sm (parse_simulcast_version_list s).
Proof. intros. unfold parse_simulcast_version_list. repeat s2. Qed.
Lemma simulcast_small : forall s, fits s -> sm (parse_simulcast s).
Proof. intros. unfold parse_simulcast. repeat ((apply version_list_small; room) || s2). Qed.
Lemma parsers_small : forall n p v, In (n, p) attr_parsers -> fits v -> sm (p v).
Proof.
  intros n p v H L. unfold attr_parsers in H. cbn [In] in H.
  repeat (destruct H as [H|H]; [apply pair_equal_spec in H; destruct H as [_ <-];
    first [ apply small_ok
          | apply dtls_small; exact L | apply image_attr_small; exact L | apply msid_semantic_small
          | apply ice_pacing_small | apply rid_small; exact L | apply ssrc_group_small; exact L
          | apply sctp_port_small; exact L | apply candidate_small | apply extmap_small; exact L
          | apply fingerprint_small; exact L | apply fmtp_small | apply framerate_small
          | apply group_small; exact L | apply ice_options_small | apply msid_small
          | apply remote_small | apply rtpmap_small | apply rtcp_small; exact L
          | apply rtcp_fb_small; exact L | apply sctpmap_small | apply setup_small
          | apply simulcast_small; exact L | apply ssrc_small | solve [repeat s2] ]|]).
  contradiction.
Qed.
Lemma attr_small : forall s, fits s -> sm (attr_from_str s).
Proof.
  intros s L. unfold attr_from_str. cbv zeta. apply small_bind; [apply small_idx|]. intros t0 T.
  destruct (Nat.ltb 1 _ && _); [err|]. destruct (assoc_str (to_lower t0) attr_parsers) as [p|] eqn:K; [|err].
  apply assoc_str_In in K. apply (parsers_small _ _ _ K). destruct (nth_error (splitn 2 c_colon s) 1) as [x|] eqn:Q; [|cbn; lia].
  apply nth_error_In, splitn_len in Q. pose proof (trim_length x). lia.
Qed.
Lemma attribute_small : forall s, fits s -> sm (parse_attribute s).
Proof. intros s L. unfold parse_attribute. apply small_bind; [|intros; apply small_ok]. apply attr_small. pose proof (trim_length s). lia. Qed.
Lemma media_small : forall s, fits s -> sm (parse_media s).
Proof. intros. unfold parse_media. cbv zeta. unfold parse_media_token, parse_protocol_token. repeat s2. Qed.
Lemma version_small : forall s, sm (parse_version s).
Proof. intros. unfold parse_version. repeat s2. Qed.
Lemma origin_small : forall s, sm (parse_origin s).
Proof. intros. unfold parse_origin. repeat s2. Qed.
Lemma connection_small : forall s, sm (parse_connection s).
Proof. intros. unfold parse_connection. cbv zeta. repeat s2. Qed.
Lemma bandwidth_small : forall s, sm (parse_bandwidth s).
Proof. intros. unfold parse_bandwidth. cbv zeta. repeat s2. Qed.
Lemma timing_small : forall s, sm (parse_timing s).
Proof. intros. unfold parse_timing. cbv zeta. repeat s2. Qed.
Lemma value_small : forall t v raw, fits v -> sm (parse_value t v raw).
Proof.
  intros t v raw L. unfold parse_value.
  repeat match goal with |- small _ (if ?b then _ else _) => destruct b;
    [first [apply attribute_small; exact L | apply bandwidth_small | apply connection_small
           | apply small_ok | apply media_small; exact L | apply origin_small | apply timing_small
           | apply version_small | err]|] end.
  err.
Qed.
Lemma line_small : forall line n e, fits line -> parse_sdp_line line n = Err e ->
  exists x, (e = PLine x line n \/ e = PUnsupported x line n) /\ (len (show_ierr x) <= M)%nat.
Proof.
  intros line n e L. unfold parse_sdp_line. cbv zeta.
  assert (F : forall m : ierr, Err (PLine m line n) = Err (A:=sdp_line) e -> (len (show_ierr m) <= 200)%nat ->
    exists x, (e = PLine x line n \/ e = PUnsupported x line n) /\ (len (show_ierr x) <= M)%nat).
  { intros m Q H. injection Q as <-. exists m. split; [left; reflexivity | apply up; exact H]. }
  destruct (negb (contains c_eq line)); [intro Q; apply (F _ Q); vm_compute; lia|].
  pose proof (splitn_all 2 c_eq line) as Z. destruct (splitn 2 c_eq line) as [|t rest]; [intro Q; apply (F _ Q); vm_compute; lia|].
  destruct (1 <? _); [intro Q; apply (F _ Q); vm_compute; lia|]. destruct (is_empty _); [intro Q; apply (F _ Q); vm_compute; lia|].
  destruct rest as [|v rest]; [intro Q; apply (F _ Q); vm_compute; lia|]. destruct (is_empty (trim v) && _); [intro Q; apply (F _ Q); vm_compute; lia|].
  sat. pose proof (trim_length v) as T. pose proof (value_small (to_lower (trim t)) (trim v) v ltac:(lia)) as V.
  destruct (parse_value _ _ _) as [ty|x|]; intro Q; try discriminate Q. injection Q as <-. exists x. split; [|exact (V x eq_refl)].
  unfold line_error. destruct x; auto.
Qed.
End WithExt.

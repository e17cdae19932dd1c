(** * The lines of the RFCs are accepted (C62): grammars, words, simple values *)
From Coq Require Import List Arith NArith ZArith Lia Bool Ascii String.
From Coq Require Import ZifyBool ZifyNat ZifyN.
From Verif Require Import Str Num Net Types Ext Show Address AttrParse Media Session SpecApi SpecDoc SpecVal SpecItems
  SpecPrint SpecIp SpecGrammar.
From Verif Require Import StrLemmas NumLemmas NetLemmas PVal PVal2 PVal8 PVal9 PVal10 PVal11 PPrint PPrint2 PPrint3 PPrint4
  PPrint9 PPrint11 PIp PIp2.
From Verif Require Import SpecRfc.
Import ListNotations.
Open Scope N_scope.
Open Scope list_scope.

(** ** Derivations *)
Lemma g_inv_lit : forall s t, gen (Lit s) t -> t = of_string s.
Proof. intros s t H. inversion H. reflexivity. Qed.
Lemma g_inv_cat : forall a b t, gen (Cat a b) t -> exists x y, t = x ++ y /\ gen a x /\ gen b y.
Proof. intros a b t H. inversion H; subst. eauto. Qed.
Lemma g_inv_or : forall a b t, gen (Or a b) t -> gen a t \/ gen b t.
Proof. intros a b t H. inversion H; subst; auto. Qed.
Lemma g_inv_such : forall a P t, gen (Such a P) t -> gen a t /\ P t.
Proof. intros a P t H. inversion H; subst; auto. Qed.
Lemma g_inv_chr : forall P t, gen (Chr P) t -> exists c, t = [c] /\ P c.
Proof. intros P t H. inversion H; subst; eauto. Qed.
Lemma g_inv_opt : forall a t, gen (opt a) t -> t = [] \/ gen a t.
Proof. intros a t H. apply g_inv_or in H. destruct H as [H|H]; [left; exact (g_inv_lit _ _ H)|auto]. Qed.
Lemma g_inv_alt : forall l a t, gen (alt a l) t -> exists r, In r (a :: l) /\ gen r t.
Proof.
  induction l as [|b l IH]; intros a t H; cbn [alt] in H; [exists a; split; [left; reflexivity|exact H]|].
  apply g_inv_or in H. destruct H as [H|H]; [exists a; split; [left; reflexivity|exact H]|].
  apply IH in H. destruct H as [r [I H]]. exists r. split; [right; exact I|exact H].
Qed.
Lemma g_inv_many : forall a t, gen (Many a) t -> exists l, Forall (gen a) l /\ t = List.concat l.
Proof.
  intros a t H. remember (Many a) as m eqn:M. induction H; try discriminate M; injection M as ->.
  - exists []. split; [constructor|reflexivity].
  - destruct (IHgen2 eq_refl) as [l [F ->]]. exists (s :: l). split; [constructor; auto|reflexivity].
Qed.
Lemma g_inv_many_chr : forall P t, gen (Many (Chr P)) t -> Forall P t.
Proof.
  intros P t H. apply g_inv_many in H. destruct H as [l [F ->]].
  induction F as [|x l H F IH]; [constructor|]. cbn [List.concat]. apply Forall_app. split; [|exact IH].
  apply g_inv_chr in H. destruct H as [c [-> H]]. constructor; [exact H|constructor].
Qed.
Lemma g_inv_many1_chr : forall P t, gen (many1 (Chr P)) t -> t <> [] /\ Forall P t.
Proof.
  intros P t H. apply g_inv_cat in H. destruct H as [x [y [-> [H K]]]]. apply g_inv_chr in H.
  destruct H as [c [-> H]]. apply g_inv_many_chr in K. split; [discriminate|constructor; assumption].
Qed.
Lemma g_inv_lits : forall l t, gen (lits l) t -> exists w, In w l /\ t = of_string w.
Proof.
  intros [|w l] t H; cbn [lits] in H; [apply g_inv_such in H; destruct H as [_ []]|].
  apply g_inv_alt in H. destruct H as [r [I H]]. destruct I as [<-|I].
  - exists w. split; [left; reflexivity|exact (g_inv_lit _ _ H)].
  - apply in_map_iff in I. destruct I as [x [<- I]]. exists x. split; [right; exact I|exact (g_inv_lit _ _ H)].
Qed.
Lemma g_inv_nocase : forall w t, gen (nocase w) t -> recased t (of_string w).
Proof. intros w t H. apply g_inv_such in H. exact (proj2 H). Qed.
Lemma g_inv_nocases : forall l t, gen (nocases l) t -> exists w, In w l /\ recased t (of_string w).
Proof.
  intros [|w l] t H; cbn [nocases] in H; [apply g_inv_such in H; destruct H as [_ []]|].
  apply g_inv_alt in H. destruct H as [r [I H]]. destruct I as [<-|I].
  - exists w. split; [left; reflexivity|exact (g_inv_nocase _ _ H)].
  - apply in_map_iff in I. destruct I as [x [<- I]]. exists x. split; [right; exact I|exact (g_inv_nocase _ _ H)].
Qed.
Lemma g_inv_cats : forall l t, gen (cats l) t -> exists ps, Forall2 gen l ps /\ t = List.concat ps.
Proof.
  induction l as [|a l IH]; intros t H.
  - exists []. split; [constructor|exact (g_inv_lit _ _ H)].
  - destruct l as [|b l].
    + exists [t]. cbn [cats] in H. split; [constructor; [exact H|constructor]|]. cbn. rewrite app_nil_r. reflexivity.
    + change (cats (a :: b :: l)) with (Cat a (cats (b :: l))) in H. apply g_inv_cat in H.
      destruct H as [x [y [-> [H K]]]]. apply IH in K. destruct K as [ps [F ->]].
      exists (x :: ps). split; [constructor; assumption|reflexivity].
Qed.
(** [Lit c] and [a], any number of times. *)
Lemma g_inv_leads : forall c s a t, of_string s = [c] -> gen (Many (Cat (Lit s) a)) t ->
  exists l, Forall (gen a) l /\ t = leads c l.
Proof.
  intros c s a t S H. apply g_inv_many in H. destruct H as [l [F ->]].
  induction F as [|x l H F [m [G IH]]]; [exists []; split; [constructor|reflexivity]|].
  apply g_inv_cat in H. destruct H as [u [v [-> [U V]]]]. apply g_inv_lit in U. subst u.
  exists (v :: m). split; [constructor; assumption|]. cbn [List.concat]. rewrite IH, S. reflexivity.
Qed.
Lemma g_inv_list : forall c s a t, of_string s = [c] -> gen (list_of s a) t ->
  exists x l, Forall (gen a) (x :: l) /\ t = x ++ leads c l.
Proof.
  intros c s a t S H. apply g_inv_cat in H. destruct H as [x [y [-> [H K]]]].
  apply (g_inv_leads c) in K; [|exact S]. destruct K as [l [F ->]]. exists x, l. split; [constructor; assumption|reflexivity].
Qed.
Lemma g_inv_leads1 : forall c s a t, of_string s = [c] -> gen (many1 (Cat (Lit s) a)) t ->
  exists l, l <> [] /\ Forall (gen a) l /\ t = leads c l.
Proof.
  intros c s a t S H. apply g_inv_cat in H. destruct H as [x [y [-> [H K]]]].
  apply g_inv_cat in H. destruct H as [u [v [-> [U V]]]]. apply g_inv_lit in U. subst u.
  apply (g_inv_leads c) in K; [|exact S]. destruct K as [l [F ->]]. exists (v :: l).
  split; [discriminate|]. split; [constructor; assumption|]. rewrite S. reflexivity.
Qed.
Lemma f2_cons : forall a l ps, Forall2 gen (a :: l) ps -> exists x r, ps = x :: r /\ gen a x /\ Forall2 gen l r.
Proof. intros a l ps H. inversion H; subst. eauto. Qed.
Lemma f2_nil : forall ps, Forall2 gen [] ps -> ps = [].
Proof. intros ps H. inversion H. reflexivity. Qed.
(** Takes a derivation of [cats] apart. *)
Ltac pieces H := apply g_inv_cats in H;
  let ps := fresh "ps" in let F := fresh "F" in
  destruct H as [ps [F ->]];
  repeat match type of F with
  | Forall2 gen (_ :: _) _ => let x := fresh "x" in let r := fresh "r" in let G := fresh "G" in
      apply f2_cons in F; destruct F as (x & r & -> & G & F)
  | Forall2 gen [] _ => apply f2_nil in F; subst
  end;
  repeat match goal with G : gen (Lit _) _ |- _ => apply g_inv_lit in G; subst end.

(** ** Words *)
Lemma recased_means : forall t w, recased t (of_string w) -> means t w.
Proof.
  intros t w H. unfold means. induction H; [constructor|]. apply spells_char; assumption.
Qed.
Lemma recased_means_upper : forall t w, recased t (of_string w) -> means_upper t w.
Proof.
  intros t w H. unfold means_upper. induction H; [constructor|]. apply spells_char; assumption.
Qed.
Lemma same_ws : forall c d, same_letter c d -> is_ws d = false -> is_ws c = false.
Proof.
  intros c d H K. unfold same_letter, ascii_lower in H.
  destruct ((65 <=? c) && (c <=? 90)) eqn:C; [|destruct ((65 <=? d) && (d <=? 90)) eqn:D].
  - unfold is_ws. lia.
  - unfold is_ws. lia.
  - subst. exact K.
Qed.
Lemma recased_word : forall t w, recased t w -> no_ws w = true -> w <> [] -> word t.
Proof.
  intros t w H K N. split.
  - intros ->. inversion H; subst. congruence.
  - clear N. induction H as [|c d t w H F IH]; [constructor|]. cbn in K. apply andb_prop in K. destruct K as [K1 K2].
    constructor; [|apply IH, K2]. eapply same_ws; [exact H|]. apply Bool.negb_true_iff, K1.
Qed.
Lemma class_word : forall (P : N -> Prop) t, (forall c, P c -> is_ws c = false) -> t <> [] -> Forall P t -> word t.
Proof. intros P t H N F. split; [exact N|]. eapply Forall_impl; [|exact F]. exact H. Qed.
Lemma vchar_solid : forall c, vchar c -> is_ws c = false.
Proof. intros c H. unfold vchar in H. unfold is_ws. lia. Qed.
Lemma token_solid : forall c, token_char c -> is_ws c = false.
Proof. intros c H. apply vchar_solid. unfold token_char in H. unfold vchar. lia. Qed.
Lemma ice_solid : forall c, ice_char c -> is_ws c = false.
Proof. intros c H. apply vchar_solid. unfold ice_char, alpha_num in H. unfold vchar. lia. Qed.
Lemma rid_solid : forall c, rid_char c -> is_ws c = false.
Proof. intros c H. apply vchar_solid. unfold rid_char, alpha_num in H. unfold vchar. lia. Qed.
Lemma digit_solid : forall c, 48 <= c <= 57 -> is_ws c = false.
Proof. intros c H. apply vchar_solid. unfold vchar. lia. Qed.
Lemma g_token : forall t, gen token t -> word t /\ Forall token_char t.
Proof.
  intros t H. apply g_inv_many1_chr in H. destruct H as [N F]. split; [|exact F].
  exact (class_word _ _ token_solid N F).
Qed.
Lemma g_vchars : forall t, gen vchars t -> word t /\ Forall vchar t.
Proof.
  intros t H. apply g_inv_many1_chr in H. destruct H as [N F]. split; [|exact F].
  exact (class_word _ _ vchar_solid N F).
Qed.
Lemma g_non_ws : forall t, gen non_ws t -> word t /\ Forall (fun c => 33 <= c) t.
Proof.
  intros t H. apply g_inv_many1_chr in H. destruct H as [N F]. split.
  - eapply class_word; [|exact N|exact F]. cbv beta. tauto.
  - eapply Forall_impl; [|exact F]. cbv beta. tauto.
Qed.
Lemma g_row : forall least most P t, (1 <= least)%nat -> gen (row least most P) t ->
  t <> [] /\ Forall P t /\ (List.length t <= most)%nat.
Proof.
  intros least most P t L H. apply g_inv_such in H. destruct H as [H K]. apply g_inv_many_chr in H.
  split; [intros ->; cbn in K; lia|]. split; [exact H|lia].
Qed.

(** ** Numbers *)
Lemma digits_word : forall t, t <> [] -> Forall is_digit t -> word t.
Proof. intros t N F. exact (class_word _ _ digit_solid N F). Qed.
Lemma digits_numeral : forall max t, t <> [] -> Forall is_digit t -> dec_value t <= max -> numeral max t (dec_value t).
Proof. intros max t N F M. exists t. split; [left; reflexivity|]. auto. Qed.
Lemma g_at_most : forall max t, gen (at_most max) t ->
  word t /\ Forall is_digit t /\ numeral max t (dec_value t).
Proof.
  intros max t H. apply g_inv_such in H. destruct H as [H M]. apply g_inv_many1_chr in H. destruct H as [N F].
  split; [exact (digits_word t N F)|]. split; [exact F|]. exact (digits_numeral max t N F M).
Qed.
Lemma dec_value_bound : forall t, Forall is_digit t -> dec_value t < 10 ^ N.of_nat (List.length t).
Proof.
  intros t F. unfold dec_value.
  assert (K : forall t a, Forall is_digit t ->
    fold_left (fun a c => 10 * a + (c - 48)) t a < (a + 1) * 10 ^ N.of_nat (List.length t)).
  { clear t F. induction t as [|c t IH]; intros a F.
    - cbn. lia.
    - inversion F as [|? ? C F']; subst. cbn [fold_left List.length]. specialize (IH (10 * a + (c - 48)) F').
      rewrite Nat2N.inj_succ, N.pow_succ_r'. unfold is_digit in C.
      assert (0 < 10 ^ N.of_nat (List.length t)) by (apply N.neq_0_lt_0, N.pow_nonzero; lia). nia. }
  specialize (K t 0 F). lia.
Qed.
Lemma g_digits : forall least most max t, (1 <= least)%nat -> 10 ^ N.of_nat most <= max + 1 ->
  gen (row least most (fun c => 48 <= c <= 57)) t -> word t /\ Forall is_digit t /\ numeral max t (dec_value t).
Proof.
  intros least most max t L M H. apply g_row in H; [|exact L]. destruct H as [N [F K]].
  split; [exact (digits_word t N F)|]. split; [exact F|]. apply digits_numeral; auto.
  pose proof (dec_value_bound t F).
  assert (10 ^ N.of_nat (List.length t) <= 10 ^ N.of_nat most) by (apply N.pow_le_mono_r; lia). lia.
Qed.
Lemma digits_no : forall c t, Forall is_digit t -> ~ is_digit c -> ~ In c t.
Proof. intros c t F D I. rewrite Forall_forall in F. exact (D (F _ I)). Qed.

Ltac fa := repeat (first [apply Forall_nil | apply Forall_cons | apply Forall_app; split]).
Ltac start := let v := fresh "v" in let H := fresh "H" in intros v H; cbn [snd] in H; cbn [fst].
Ltac text t := match goal with |- ?f ?n ?u => replace u with t by
  (cbn [List.concat leads flat_map app]; repeat (rewrite <- app_assoc; cbn [app]); rewrite ?app_nil_r; reflexivity) end.

(** ** Lines *)
Section WithExt.
Context {E : Ext}.
Definition not_image (a : attr) : Prop := match a with AImageAttr _ => False | _ => True end.
Lemma attr_line : forall v a n, attr_value (trim_end v) a -> not_image a ->
  parse_sdp_line (lit "a=" ++ of_string (sdp_name a) ++ 58 :: v) n =
  Ok {| l_number := n; l_type := TyAttribute a; l_text := lit "a=" ++ of_string (sdp_name a) ++ 58 :: v |}.
Proof.
  intros v a n V I. apply line_iff. { destruct a; try exact Logic.I. destruct I. }
  split; [reflexivity|]. split; [reflexivity|]. cbn [l_type].
  exists [], 97, [], (of_string (sdp_name a) ++ 58 :: v).
  split; [reflexivity|]. split; [constructor|]. split; [constructor|]. split; [reflexivity|].
  destruct (name_word a) as (N1 & N2 & N3). cbn [type_value].
  exists (of_string (sdp_name a) ++ 58 :: trim_end v). split.
  - destruct (trim_end_suffix v) as [w [W1 W2]]. exists [], w. split.
    { cbn [app]. rewrite <- app_assoc. cbn [app]. rewrite <- W1. reflexivity. }
    split; [constructor|]. split; [apply Forall_forall; rewrite forallb_forall in W2; exact W2|]. right. split.
    + apply starts_app, word_starts, N1.
    + destruct (trim_end_cases v) as [T|T].
      * rewrite T. exists 58, (of_string (sdp_name a)). split; reflexivity.
      * destruct T as [x [c [T C]]]. rewrite T. exists c, (of_string (sdp_name a) ++ 58 :: x).
        split; [rewrite <- app_assoc; reflexivity|exact C].
  - right. exists (of_string (sdp_name a)), (trim_end v). split; [split; [reflexivity|exact N2]|]. split; assumption.
Qed.

(** ** Values *)
Definition read_as (name : string) (v : str) : Prop :=
  exists a, sdp_name a = name /\ not_image a /\ attr_value (trim_end v) a.
Lemma read_solid : forall v a, ends_solid v -> not_image a -> attr_value v a -> read_as (sdp_name a) v.
Proof.
  intros v a S I V. exists a. split; [reflexivity|]. split; [exact I|]. rewrite trim_end_id; [exact V|].
  destruct S as [c [x [-> C]]]. exists x, c. auto.
Qed.
Definition names_of (nv : string * abnf) : Prop := forall v, gen (snd nv) v -> read_as (fst nv) v.

Lemma recased_same : forall t w w', recased t w -> recased w w' -> recased t w'.
Proof.
  intros t w w' H. revert w'. induction H as [|c d t w C H IH]; intros w' K; inversion K as [|? e ? w2 D K2]; subst.
  - constructor.
  - constructor; [unfold same_letter in *; congruence|apply IH, K2].
Qed.
Lemma recased_refl_b : forall w w', map ascii_lower w = map ascii_lower w' -> recased w w'.
Proof.
  induction w as [|c w IH]; intros [|d w'] H; try discriminate H; constructor.
  - cbn in H. unfold same_letter. congruence.
  - apply IH. cbn in H. congruence.
Qed.
Lemma recased_to : forall t w name, recased t (of_string w) -> map ascii_lower (of_string w) = map ascii_lower (of_string name) ->
  means t name /\ means_upper t name.
Proof.
  intros t w name H K. pose proof (recased_same _ _ _ H (recased_refl_b _ _ K)) as R.
  split; [apply recased_means, R|apply recased_means_upper, R].
Qed.
Lemma recased_is_word : forall t w, recased t (of_string w) -> non_empty (of_string w) && no_ws (of_string w) = true -> word t.
Proof.
  intros t w H K. apply andb_prop in K. destruct K as [K1 K2]. eapply recased_word; [exact H|exact K2|].
  intro Z. rewrite Z in K1. discriminate K1.
Qed.

Lemma r_word : forall v a, (attr_value v a <-> text_value v v) -> not_image a -> word v -> read_as (sdp_name a) v.
Proof.
  intros v a H I W. apply read_solid; [apply word_ends, W|exact I|]. apply H. split; [apply word_core, W|apply W].
Qed.
Lemma r_number : forall v max a, (attr_value v a <-> number_value max v (dec_value v)) -> not_image a ->
  word v -> numeral max v (dec_value v) -> read_as (sdp_name a) v.
Proof.
  intros v max a H I W U. apply read_solid; [apply word_ends, W|exact I|]. apply H. exists v. split; [apply word_core, W|exact U].
Qed.

Lemma r_ice_ufrag : names_of ("ice-ufrag"%string, row 4 256 ice_char).
Proof.
  start. apply g_row in H; [|lia]. apply (r_word v (AIceUfrag v)); [reflexivity|exact I|].
  exact (class_word _ _ ice_solid (proj1 H) (proj1 (proj2 H))).
Qed.
Lemma r_ice_pwd : names_of ("ice-pwd"%string, row 22 256 ice_char).
Proof.
  start. apply g_row in H; [|lia]. apply (r_word v (AIcePwd v)); [reflexivity|exact I|].
  exact (class_word _ _ ice_solid (proj1 H) (proj1 (proj2 H))).
Qed.
Lemma r_mid : names_of ("mid"%string, token).
Proof. start. apply g_token in H. apply (r_word v (AMid v)); [reflexivity|exact I|apply H]. Qed.
Lemma r_label : names_of ("label"%string, token).
Proof. start. apply g_token in H. apply (r_word v (ALabel v)); [reflexivity|exact I|apply H]. Qed.
Lemma r_identity : names_of ("identity"%string, vchars).
Proof. start. apply g_vchars in H. apply (r_word v (AIdentity v)); [reflexivity|exact I|apply H]. Qed.
Lemma r_ice_pacing : names_of ("ice-pacing"%string, row 1 10 (fun c => 48 <= c <= 57)).
Proof.
  start. apply (g_digits _ _ 9999999999) in H; [|lia|reflexivity || (vm_compute; discriminate)].
  apply (r_number v 9999999999 (AIcePacing (dec_value v))); [reflexivity|exact I|apply H|apply H].
Qed.
Lemma r_sctp_port : names_of ("sctp-port"%string, port).
Proof.
  start. apply g_at_most in H.
  apply (r_number v 65535 (ASctpPort (dec_value v))); [reflexivity|exact I|apply H|apply H].
Qed.
Lemma r_max_message_size : names_of ("max-message-size"%string, at_most u64_max).
Proof.
  start. apply g_at_most in H.
  apply (r_number v u64_max (AMaxMessageSize (dec_value v))); [reflexivity|exact I|apply H|apply H].
Qed.
Lemma r_ptime : names_of ("ptime"%string, at_most u64_max).
Proof.
  start. apply g_at_most in H.
  apply (r_number v u64_max (APtime (dec_value v))); [reflexivity|exact I|apply H|apply H].
Qed.
Lemma r_maxptime : names_of ("maxptime"%string, at_most u64_max).
Proof.
  start. apply g_at_most in H.
  apply (r_number v u64_max (AMaxPtime (dec_value v))); [reflexivity|exact I|apply H|apply H].
Qed.
Lemma forall_word : forall (a : abnf) l, (forall t, gen a t -> word t) -> Forall (gen a) l -> Forall word l.
Proof. intros a l H F. eapply Forall_impl; [|exact F]. exact H. Qed.
Lemma token_word : forall t, gen token t -> word t.
Proof. intros t H. exact (proj1 (g_token t H)). Qed.
Lemma vchars_word : forall t, gen vchars t -> word t.
Proof. intros t H. exact (proj1 (g_vchars t H)). Qed.
Lemma non_ws_word : forall t, gen non_ws t -> word t.
Proof. intros t H. exact (proj1 (g_non_ws t H)). Qed.
Lemma number_word : forall max t, gen (at_most max) t -> word t.
Proof. intros max t H. exact (proj1 (g_at_most max t H)). Qed.
Lemma number_read : forall max t, gen (at_most max) t -> numeral max t (dec_value t).
Proof. intros max t H. exact (proj2 (proj2 (g_at_most max t H))). Qed.
Lemma ice_word : forall t, gen (many1 (Chr ice_char)) t -> word t.
Proof. intros t H. apply g_inv_many1_chr in H. exact (class_word _ _ ice_solid (proj1 H) (proj2 H)). Qed.

Lemma r_ice_options : names_of ("ice-options"%string, list_of " " (many1 (Chr ice_char))).
Proof.
  start. apply (g_inv_list 32) in H; [|reflexivity]. destruct H as [x [l [F ->]]].
  apply (forall_word _ _ ice_word) in F. inversion F as [|? ? W F']; subst.
  apply (read_solid _ (AIceOptions (x :: l))); [apply ends_leads; assumption|exact I|].
  split; [apply words_leads; assumption|discriminate].
Qed.
Lemma r_setup : names_of ("setup"%string, nocases ["active"; "passive"; "actpass"; "holdconn"]%string).
Proof.
  start. apply g_inv_nocases in H. destruct H as [w [M R]].
  assert (K : exists x, setup_name x = w).
  { cbn in M. destruct M as [<-|[<-|[<-|[<-|[]]]]];
      [exists SetupActive|exists SetupPassive|exists SetupActpass|exists SetupHoldconn]; reflexivity. }
  destruct K as [x <-].
  assert (W : word v) by (apply (recased_is_word _ _ R); destruct x; reflexivity).
  apply (read_solid _ (ASetup x)); [apply word_ends, W|exact I|].
  exists v. split; [apply word_core, W|]. apply recased_means, R.
Qed.
Lemma r_sctpmap : names_of ("sctpmap"%string, cats [port; Lit " "; nocase "webrtc-datachannel"; Lit " "; at_most u32_max]).
Proof.
  start. pieces H. apply g_inv_nocase in G1.
  pose proof (recased_is_word _ _ G1 eq_refl) as W.
  apply number_word in G as W1. apply number_word in G3 as W3.
  text (x ++ leads 32 [x1; x3]).
  apply (read_solid _ (ASctpmap {| sm_port := dec_value x; sm_channels := dec_value x3 |})); [|exact I|].
  - apply ends_leads; fa; assumption.
  - exists x, x1, x3. split; [apply words_leads; fa; assumption|]. split; [apply number_read, G|].
    split; [apply recased_means, G1|apply number_read, G3].
Qed.

(** *** Addresses *)
Lemma g_ip : forall t a, ip_text t a -> word t /\ ~ In 47 t.
Proof.
  intros t a H. pose proof (text_chars _ _ H) as F. split.
  - split.
    + intros ->. apply ip_texts in H. vm_compute in H. discriminate H.
    + eapply Forall_impl; [|exact F]. cbv beta. intros c [C _]. apply vchar_solid. unfold vchar. lia.
  - intro J. rewrite Forall_forall in F. specialize (F _ J). cbv beta in F. lia.
Qed.
Hypothesis OK : ext_ok E.
Lemma g_ip4 : forall t, gen ip4 t -> word t /\ ~ In 47 t /\ exists n, reads_address t (Ip (V4 n)).
Proof.
  intros t H. apply g_inv_such in H. destruct H as [_ [n H]].
  destruct (g_ip t (V4 n) H) as [W S]. split; [exact W|]. split; [exact S|]. exists n.
  destruct (in_dec N.eq_dec 58 t) as [C|C].
  - left. split; [exact C|]. exists (V4 n). split; [apply ip4_texts, H|reflexivity].
  - right. split; [tauto|]. exists (HIpv4 n). split; [|reflexivity].
    rewrite (ip4_one _ _ H). apply (host_show_ip4 _ OK).
    pose proof (texts_are_values t (V4 n) H) as V. cbn in V. unfold u32_max. lia.
Qed.
Lemma g_ip6 : forall t, gen ip6 t -> word t /\ ~ In 47 t /\ exists n, reads_address t (Ip (V6 n)).
Proof.
  intros t H. apply g_inv_such in H. destruct H as [_ [n H]].
  destruct (g_ip t (V6 n) H) as [W S]. split; [exact W|]. split; [exact S|]. exists n. left.
  split; [exact (ip6_colon _ _ H)|]. exists (V6 n). split; [apply ip6_texts, H|reflexivity].
Qed.
Lemma g_fqdn : forall t, gen fqdn t -> word t /\ ~ In 47 t /\ exists d, reads_address t (Fqdn d).
Proof.
  intros t H. apply g_inv_such in H. destruct H as [H [d D]]. apply g_inv_many1_chr in H. destruct H as [N F].
  rewrite Forall_forall in F. split.
  - apply (class_word vchar); [exact vchar_solid|exact N|]. apply Forall_forall. intros c C. apply (F c C).
  - split; [intro C; exact (proj2 (proj2 (F _ C)) eq_refl)|]. exists d. right. split.
    + intros [C _]. exact (proj1 (proj2 (F _ C)) eq_refl).
    + exists (HDomain d). split; [exact D|reflexivity].
Qed.
Lemma g_address : forall t, gen address_rule t -> word t /\ ~ In 47 t /\ exists a, reads_address t a.
Proof.
  intros t H. apply g_inv_alt in H. destruct H as [r [M H]]. cbn [In] in M.
  destruct M as [<-|[<-|[<-|[]]]];
    [destruct (g_ip4 t H) as (W & S & n & R)|destruct (g_ip6 t H) as (W & S & n & R)|destruct (g_fqdn t H) as (W & S & n & R)];
    (split; [exact W|]; split; [exact S|]; eexists; exact R).
Qed.
Lemma g_typed : forall t, gen typed t -> exists net ty addr k a, t = net ++ leads 32 [ty; addr] /\
  word net /\ word ty /\ word addr /\ means_upper net "IN" /\ means_upper ty (addr_type_name k) /\ ~ In 47 addr /\
  reads_typed k addr a.
Proof.
  intros t H. apply g_inv_or in H. destruct H as [H|H]; pieces H; apply g_inv_nocase in G; apply g_inv_nocase in G1;
    pose proof (recased_is_word _ _ G eq_refl) as W; pose proof (recased_is_word _ _ G1 eq_refl) as W1;
    apply recased_means_upper in G; apply recased_means_upper in G1.
  - assert (K : word x3 /\ ~ In 47 x3 /\ exists a, reads_typed IpV4 x3 a).
    { apply g_inv_or in G3. destruct G3 as [G3|G3];
        [destruct (g_ip4 _ G3) as (W3 & S3 & n & R)|destruct (g_fqdn _ G3) as (W3 & S3 & n & R)]; (split; [exact W3|]; split; [exact S3|]).
      - exists (TIp (V4 n)). right. left. split; [reflexivity|]. exists n. auto.
      - exists (TFqdn IpV4 n). left. exists n. auto. }
    destruct K as (W3 & S3 & a & R). exists x, x1, x3, IpV4, a. split.
    + cbn [List.concat leads flat_map app]. rewrite ?app_nil_r. reflexivity.
    + auto 10.
  - assert (K : word x3 /\ ~ In 47 x3 /\ exists a, reads_typed IpV6 x3 a).
    { apply g_inv_or in G3. destruct G3 as [G3|G3];
        [destruct (g_ip6 _ G3) as (W3 & S3 & n & R)|destruct (g_fqdn _ G3) as (W3 & S3 & n & R)]; (split; [exact W3|]; split; [exact S3|]).
      - exists (TIp (V6 n)). right. right. split; [reflexivity|]. exists n. auto.
      - exists (TFqdn IpV6 n). left. exists n. auto. }
    destruct K as (W3 & S3 & a & R). exists x, x1, x3, IpV6, a. split.
    + cbn [List.concat leads flat_map app]. rewrite ?app_nil_r. reflexivity.
    + auto 10.
Qed.
Lemma r_remote_candidates : names_of ("remote-candidates"%string, rfc_remote_candidates).
Proof.
  start. apply (g_inv_list 32) in H; [|reflexivity]. destruct H as [x [l [F ->]]].
  assert (K : forall t, gen one_remote t -> exists a b c, t = a ++ leads 32 [b; c] /\ Forall word [a; b; c] /\
    numeral u32_max a (dec_value a) /\ (exists r, reads_address b r) /\ numeral 65535 c (dec_value c)).
  { clear -OK. intros t H. pieces H. exists x, x1, x3. split; [cbn [List.concat leads flat_map app]; rewrite ?app_nil_r; reflexivity|].
    apply (g_digits _ _ u32_max) in G; [|lia|vm_compute; discriminate]. destruct G as (W & _ & U).
    apply g_address in G1. destruct G1 as (W1 & _ & R). apply g_at_most in G3. destruct G3 as (W3 & _ & U3).
    split; [fa; assumption|]. auto. }
  inversion F as [|? ? H F']; subst. apply K in H. destruct H as (a & b & c & -> & W & U & [r R] & U3).
  assert (L : exists ws, Forall word ws /\ leads 32 l = leads 32 ws).
  { clear -F' K. induction F' as [|t l H F [ws [IH1 IH2]]]; [exists []; split; [constructor|reflexivity]|].
    apply K in H. destruct H as (a & b & c & -> & W & _). exists (a :: b :: c :: ws).
    inversion W as [|? ? W1 W']; inversion W' as [|? ? W2 W'']; inversion W'' as [|? ? W3 _]; subst. split; [fa; assumption|].
    cbn [leads flat_map]. cbn [leads flat_map] in IH2. unfold leads in IH2. rewrite IH2.
    repeat (cbn [app]; rewrite <- ?app_assoc, ?app_nil_r). reflexivity. }
  destruct L as [ws [V ->]].
  inversion W as [|? ? W1 W']; inversion W' as [|? ? W2 W'']; inversion W'' as [|? ? W3 _]; subst.
  replace ((a ++ leads 32 [b; c]) ++ leads 32 ws) with (a ++ leads 32 (b :: c :: ws)) by (rewrite <- app_assoc, <- leads_app; reflexivity).
  apply (read_solid _ (ARemoteCandidate {| rc_component := dec_value a; rc_address := r; rc_port := dec_value c |})); [|exact I|].
  - apply ends_leads; fa; assumption.
  - exists a, b, c, ws. split; [apply words_leads; fa; assumption|]. auto.
Qed.
Lemma r_rtcp : names_of ("rtcp"%string, rfc_rtcp).
Proof.
  start. apply g_inv_cat in H. destruct H as [x [y [-> [H K]]]]. apply g_at_most in H. destruct H as (W & _ & U).
  apply g_inv_opt in K. destruct K as [->|K].
  - rewrite app_nil_r. apply (read_solid _ (ARtcp {| rtcp_port := dec_value x; rtcp_unicast_addr := None |}));
      [apply word_ends, W|exact I|]. exists x, []. split; [|auto].
    rewrite <- (app_nil_r x) at 1. apply (words_leads x []); [exact W|constructor].
  - apply g_inv_cat in K. destruct K as [u [v [-> [K V]]]]. apply g_inv_lit in K. subst u.
    apply g_typed in V. destruct V as (net & ty & addr & k & a & -> & W1 & W2 & W3 & M1 & M2 & _ & R).
    text (x ++ leads 32 [net; ty; addr]).
    apply (read_solid _ (ARtcp {| rtcp_port := dec_value x; rtcp_unicast_addr := Some a |})); [|exact I|].
    + apply ends_leads; fa; assumption.
    + exists x, [net; ty; addr]. split; [apply words_leads; fa; assumption|]. split; [exact U|].
      split; [exact M1|]. exists k, a. auto.
Qed.
End WithExt.

(** * Reading text: the parser's primitives against the grammars of SpecVal.v
    (proofs only) *)
From Coq Require Import List NArith ZArith Bool Ascii String Lia.
From Coq Require Import ZifyBool ZifyNat ZifyN.
From Verif Require Import Str Num Net Types Ext Show Address AttrParse Media Session.
From Verif Require Import StrLemmas NumLemmas NetLemmas.
From Verif Require Import SpecApi SpecDoc SpecVal.
Import ListNotations.
Open Scope N_scope.
Open Scope list_scope.

(** ** Whitespace *)
Lemma blank_forallb : forall w, blank w <-> forallb is_ws w = true.
Proof. intro w. unfold blank. rewrite Forall_forall, forallb_forall. reflexivity. Qed.

Lemma core_trim : forall v t, core v t <-> t = trim v.
Proof.
  intros v t; split.
  - intros (w1 & w2 & -> & B1 & B2 & H).
    apply blank_forallb in B1, B2. rewrite trim_pad by assumption.
    destruct H as [-> | [(c & x & -> & Hc) (d & y & Hy & Hd)]]; [reflexivity|].
    symmetry. apply trim_id. split; [exists c, x; auto | exists y, d; auto].
  - intros ->. destruct (trim_decompose v) as (w1 & w2 & Hv & B1 & B2).
    exists w1, w2. rewrite !blank_forallb. repeat split; auto.
    destruct (trim_cases v) as [H | [(c & x & H & Hc) (y & d & H' & Hd)]]; [auto|right].
    split; [exists c, x; auto | exists d, y; auto].
Qed.

Lemma core_trim_self : forall v, core v (trim v).
Proof. intro v. apply core_trim. reflexivity. Qed.

Lemma word_token : forall t, word t <-> token t.
Proof.
  intro t. unfold word, token, no_ws. rewrite Forall_forall, forallb_forall.
  split; intros [H1 H2]; (split; [exact H1 | intros x Hx; specialize (H2 x Hx)]).
  - rewrite H2. reflexivity.
  - destruct (is_ws x); [discriminate | reflexivity].
Qed.

Lemma words_sws : forall s l, words s l <-> split_whitespace s = l.
Proof.
  intros s l; split.
  - induction 1 as [w B | w t B T | w t c s l B T C W IH]; try apply blank_forallb in B;
      try apply word_token in T.
    + rewrite <- (app_nil_r w), sws_app_ws_start by assumption. reflexivity.
    + rewrite sws_app_ws_start by assumption. apply sws_one; assumption.
    + rewrite sws_app_ws_start by assumption. rewrite sws_cons by assumption. now rewrite IH.
  - intros <-.
    assert (G : forall n s, (List.length s <= n)%nat -> words s (split_whitespace s)).
    { clear s. induction n as [|n IH]; intros s Hn.
      - destruct s; [apply words_none; constructor | cbn in Hn; lia].
      - destruct (trim_start_prefix s) as (w & Hs & Bw).
        destruct (trim_start_cases s) as [H0 | (c & x & Hx & Hc)].
        + rewrite H0, app_nil_r in Hs. subst s.
          rewrite <- (app_nil_r w), sws_app_ws_start, sws_nil, app_nil_r by assumption.
          apply words_none, blank_forallb; assumption.
        + rewrite Hx in Hs. clear Hx. subst s. rewrite sws_app_ws_start by assumption.
          assert (Hsp : exists t r, c :: x = t ++ r /\ word t /\
                    (r = [] \/ exists d r', r = d :: r' /\ is_ws d = true)).
          { clear Hn IH. revert c Hc. induction x as [|y x IHx]; intros c Hc.
            - exists [c], []. repeat split; try discriminate; auto.
            - destruct (is_ws y) eqn:Hy.
              + exists [c], (y :: x). repeat split; try discriminate; auto.
                right. exists y, x. auto.
              + destruct (IHx y Hy) as (t & r & He & [Ht1 Ht2] & Hr).
                exists (c :: t), r. rewrite He. repeat split; try discriminate; auto. }
          destruct Hsp as (t & r & He & Ht & Hr). rewrite He.
          destruct Hr as [-> | (d & r' & -> & Hd)].
          * rewrite app_nil_r, sws_one by (apply word_token; exact Ht).
            apply words_last; [apply blank_forallb; assumption | exact Ht].
          * rewrite sws_cons by (try apply word_token; assumption).
            apply words_more; try assumption; [apply blank_forallb; assumption|].
            apply IH. rewrite app_length, He, app_length in Hn. cbn in Hn.
            destruct t; [destruct Ht; congruence|]. cbn in Hn. lia. }
    apply (G (List.length s)). lia.
Qed.

Lemma words_trim : forall s l, words (trim s) l <-> words s l.
Proof. intros. rewrite !words_sws, sws_trim. reflexivity. Qed.

Lemma words_word : forall s l t, words s l -> In t l -> word t.
Proof.
  intros s l t H Hi. apply words_sws in H. subst l. apply word_token.
  exact (proj1 (Forall_forall _ _) (sws_tokens s) t Hi).
Qed.

(** ** Separators *)
Lemma fields_split : forall c s l, fields c s l <-> split c s = l.
Proof.
  intros c s l; split.
  - induction 1 as [s H | t s l H F IH].
    + apply split_none, contains_not_In, H.
    + rewrite split_app by (apply contains_not_In, H). now rewrite IH.
  - intros <-.
    assert (G : forall n s, (List.length s <= n)%nat -> fields c s (split c s)).
    { clear s. induction n as [|n IH]; intros s Hn.
      - destruct s; [apply fields_last; intros [] | cbn in Hn; lia].
      - destruct (split_once c s) as [[a b]|] eqn:Ho.
        + apply split_once_some in Ho. destruct Ho as [-> Ha].
          rewrite split_app by assumption. apply fields_more.
          * apply contains_not_In, Ha.
          * apply IH. rewrite app_length in Hn. cbn in Hn. lia.
        + apply split_once_none_inv in Ho. rewrite split_none by assumption.
          apply fields_last, contains_not_In, Ho. }
    apply (G (List.length s)). lia.
Qed.

Lemma cut_once : forall c s a b, cut c s a b <-> split_once c s = Some (a, b).
Proof.
  intros c s a b; split.
  - intros [-> H]. apply split_once_app, contains_not_In, H.
  - intro H. apply split_once_some in H. destruct H as [-> H]. split; [reflexivity|].
    apply contains_not_In, H.
Qed.

Lemma cut_splitn2 : forall c s a b, cut c s a b <-> splitn 2 c s = [a; b].
Proof.
  intros c s a b. rewrite cut_once. cbn [splitn].
  destruct (split_once c s) as [[x y]|]; split; intro H; try discriminate; inv H; reflexivity.
Qed.

Lemma cut_fun : forall c s a b a' b', cut c s a b -> cut c s a' b' -> a = a' /\ b = b'.
Proof. intros c s a b a' b' H H'. apply cut_once in H, H'. rewrite H in H'. inv H'. auto. Qed.

Lemma cut_In : forall c s a b, cut c s a b -> In c s.
Proof. intros c s a b [-> _]. apply in_or_app. right. now left. Qed.

Lemma In_cut : forall c s, In c s -> exists a b, cut c s a b.
Proof.
  intros c s H. destruct (splitn2_cases c s) as [[N _] | (a & b & -> & N & _)].
  - apply contains_not_In in N. contradiction.
  - exists a, b. split; [reflexivity|]. apply contains_not_In, N.
Qed.

Lemma fields_two_cut : forall c s a b, fields c s [a; b] -> cut c s a b.
Proof.
  intros c s a b H. inversion H as [|t r l N F]; subst.
  inversion F as [|t' r' l' N' F']; subst; [split; [reflexivity | assumption] | inversion F'].
Qed.

Lemma parts_splitn : forall n s l, space_parts n s l <-> (n <> O /\ splitn n 32 s = l).
Proof.
  induction n as [|n IH]; intros s l; [cbn; split; [tauto | intros [H _]; congruence]|].
  destruct n as [|n].
  - cbn. split; [intros ->; split; [discriminate|reflexivity] | intros [_ <-]; reflexivity].
  - change (space_parts (S (S n)) s l) with
      ((~ In 32 s /\ l = [s]) \/ exists a b r, cut 32 s a b /\ l = a :: r /\ space_parts (S n) b r).
    change (splitn (S (S n)) 32 s) with
      (match split_once 32 s with Some (a, b) => a :: splitn (S n) 32 b | None => [s] end).
    split.
    + intros [[H ->] | (a & b & r & C & -> & P)].
      * rewrite split_once_none by (apply contains_not_In, H). split; [discriminate|reflexivity].
      * apply cut_once in C. rewrite C. apply IH in P. destruct P as [_ <-].
        split; [discriminate | reflexivity].
    + intros [_ <-]. destruct (split_once 32 s) as [[a b]|] eqn:Ho.
      * right. exists a, b, (splitn (S n) 32 b). rewrite cut_once, IH. repeat split; auto.
      * left. apply split_once_none_inv, contains_not_In in Ho. auto.
Qed.

Lemma splitn_nonempty : forall n c s, splitn (S n) c s <> [].
Proof.
  intros n c s. destruct n; [discriminate|]. cbn [splitn].
  destruct (split_once c s) as [[a b]|]; discriminate.
Qed.

(** ** Numbers *)
Lemma fold_pos : forall b l acc,
  fold_left (fun a d => b * a + d) l acc = acc * b ^ N.of_nat (List.length l) + pos_value b l.
Proof.
  intros b l; induction l as [|d l IH]; intro acc.
  - cbn [fold_left pos_value List.length N.of_nat]. rewrite N.pow_0_r. lia.
  - cbn [fold_left pos_value List.length]. rewrite IH, Nat2N.inj_succ, N.pow_succ_r'. lia.
Qed.

Lemma dec_value_pos : forall ds, dec_value ds = pos_value 10 (map (fun c => c - 48) ds).
Proof.
  intro ds. unfold dec_value.
  assert (G : forall l acc, fold_left (fun a c => 10 * a + (c - 48)) l acc =
                            fold_left (fun a d => 10 * a + d) (map (fun c => c - 48) l) acc).
  { induction l as [|c l IH]; intro acc; [reflexivity|]. cbn [fold_left map]. apply IH. }
  rewrite G, fold_pos. lia.
Qed.

Lemma to_digit_dec : forall c d, to_digit 10 c = Some d <-> is_digit c /\ d = c - 48.
Proof.
  intros c d. unfold to_digit, is_digit.
  destruct ((48 <=? c) && (c <=? 57)) eqn:H.
  - destruct (c - 48 <? 10) eqn:H2; [|lia]. split; [intro X; inv X; lia | intros [_ ->]; reflexivity].
  - split; [|lia].
    destruct ((97 <=? c) && (c <=? 102)) eqn:H3;
      [destruct (c - 87 <? 10) eqn:H4; [lia|discriminate]|].
    destruct ((65 <=? c) && (c <=? 70)) eqn:H5;
      [destruct (c - 55 <? 10) eqn:H4; [lia|discriminate] | discriminate].
Qed.

Lemma to_digit_hex : forall c d, to_digit 16 c = Some d <-> hex_digit c d.
Proof.
  intros c d. unfold to_digit, hex_digit.
  destruct ((48 <=? c) && (c <=? 57)) eqn:H1;
    [destruct (c - 48 <? 16) eqn:H; [|lia]; split; [intro X; inv X; lia | intro; f_equal; lia]|].
  destruct ((97 <=? c) && (c <=? 102)) eqn:H2;
    [destruct (c - 87 <? 16) eqn:H; [|lia]; split; [intro X; inv X; lia | intro; f_equal; lia]|].
  destruct ((65 <=? c) && (c <=? 70)) eqn:H3;
    [destruct (c - 55 <? 16) eqn:H; [|lia]; split; [intro X; inv X; lia | intro; f_equal; lia]|].
  split; [discriminate | lia].
Qed.

Lemma numeral_iff : forall max s n, numeral max s n <-> parse_uint 10 max s = Ok n.
Proof.
  intros max s n. rewrite parse_uint_spec by lia. unfold numeral, Numeral. split.
  - intros (ds & Hs & Hne & Hd & -> & Hle).
    assert (F : Forall2 (fun c d => to_digit 10 c = Some d) ds (map (fun c => c - 48) ds)).
    { clear -Hd. induction Hd; constructor; auto. apply to_digit_dec. auto. }
    destruct Hs as [-> | ->]; [exists [], ds | exists [c_plus], ds];
      exists (map (fun c => c - 48) ds);
      (split; [reflexivity|]); (split; [auto|]); (split; [exact Hne|]); (split; [exact F|]);
      (split; [apply dec_value_pos | exact Hle]).
  - intros (sign & body & ds & -> & Hs & Hne & F & -> & Hle).
    assert (Hd : Forall is_digit body /\ map (fun c => c - 48) body = ds).
    { clear -F. induction F as [|c d l l' H F [IH1 IH2]]; [split; auto|].
      apply to_digit_dec in H. destruct H as [H ->]. split; [constructor; auto | cbn; congruence]. }
    destruct Hd as [Hd <-]. exists body.
    split; [destruct Hs as [-> | ->]; [left | right]; reflexivity|].
    split; [exact Hne|]. split; [exact Hd|]. split; [symmetry; apply dec_value_pos | exact Hle].
Qed.

Lemma hex_numeral_iff : forall max s n, hex_numeral max s n <-> parse_uint 16 max s = Ok n.
Proof.
  intros max s n. rewrite parse_uint_spec by lia. unfold hex_numeral, Numeral.
  assert (G : forall a b, Forall2 hex_digit a b <-> Forall2 (fun c d => to_digit 16 c = Some d) a b).
  { intros a b; split; intro F; induction F; constructor; auto; apply to_digit_hex; auto. }
  split.
  - intros (cs & ds & Hs & Hne & F & -> & Hle). apply G in F. rewrite fold_pos in *.
    destruct Hs as [-> | ->]; [exists [], cs | exists [c_plus], cs]; exists ds;
      (split; [reflexivity|]); (split; [auto|]); (split; [exact Hne|]); (split; [exact F|]);
      (split; [lia | exact Hle]).
  - intros (sign & body & ds & -> & Hs & Hne & F & -> & Hle). apply G in F.
    exists body, ds. rewrite fold_pos.
    split; [destruct Hs as [-> | ->]; [left | right]; reflexivity|].
    split; [exact Hne|]. split; [exact F|]. split; [lia | exact Hle].
Qed.

Lemma numeral_le : forall max s n, numeral max s n -> n <= max.
Proof. intros max s n (ds & _ & _ & _ & _ & H). exact H. Qed.
Lemma numeral_weaken : forall m max s n, numeral max s n -> n <= m -> numeral m s n.
Proof. intros m max s n (ds & H1 & H2 & H3 & H4 & _) H. exists ds. auto. Qed.
Lemma hex_numeral_le : forall max s n, hex_numeral max s n -> n <= max.
Proof. intros max s n (cs & ds & _ & _ & _ & _ & H). exact H. Qed.
Lemma hex_numeral_weaken : forall m max s n, hex_numeral max s n -> n <= m -> hex_numeral m s n.
Proof. intros m max s n (cs & ds & H1 & H2 & H3 & H4 & _) H. exists cs, ds. auto. Qed.
Lemma numeral_fun : forall m max s a b, numeral m s a -> numeral max s b -> a = b.
Proof.
  intros m max s a b Ha Hb.
  assert (G : forall m max s a b, m <= max -> numeral m s a -> numeral max s b -> a = b).
  { clear. intros m max s a b L Ha Hb. apply (numeral_weaken max) in Ha;
      [|apply numeral_le in Ha; lia]. apply numeral_iff in Ha, Hb. congruence. }
  destruct (N.le_ge_cases m max) as [L|L]; [|symmetry]; eapply G; eauto.
Qed.
Lemma numeral_cut : forall m max s n, m <= max ->
  (numeral m s n <-> numeral max s n /\ n <= m).
Proof.
  intros m max s n L; split.
  - intro H. pose proof (numeral_le _ _ _ H). split; [|assumption].
    eapply numeral_weaken; eauto; lia.
  - intros [H1 H2]. eapply numeral_weaken; eauto.
Qed.
Lemma numeral_nonempty : forall m n, ~ numeral m [] n.
Proof. intros m n (ds & [<- | H] & Hne & _); [congruence | discriminate]. Qed.
Lemma numeral_chars : forall m s n, numeral m s n -> forall c, In c s -> is_digit c \/ c = 43.
Proof.
  intros m s n (ds & Hs & _ & Hd & _) c Hc. rewrite Forall_forall in Hd.
  destruct Hs as [-> | ->]; [left; auto|]. destruct Hc as [<- | Hc]; auto.
Qed.

(** ** Known words *)
Definition upper_word (w : str) : bool :=
  forallb (fun c => (c <? 128) && negb ((97 <=? c) && (c <=? 122))) w.
Definition lower_word (w : str) : bool :=
  forallb (fun c => (c <? 128) && negb ((65 <=? c) && (c <=? 90))) w.

Lemma ascii_lower_cases : forall c, 
  (65 <= c <= 90 /\ ascii_lower c = c + 32) \/ (~ (65 <= c <= 90) /\ ascii_lower c = c).
Proof.
  intro c. unfold ascii_lower. destruct ((65 <=? c) && (c <=? 90)) eqn:H; lia.
Qed.

Lemma upper_char_cases : forall c,
  (97 <= c <= 122 /\ upper_char c = [c - 32]) \/
  (exists p, In (c, p) upper_special /\ upper_char c = p) \/
  (~ (97 <= c <= 122) /\ upper_char c = [c]).
Proof.
  intro c. unfold upper_char.
  destruct ((97 <=? c) && (c <=? 122)) eqn:H; [left; split; [lia | reflexivity]|].
  repeat match goal with
         | |- context [if c =? ?k then _ else _] =>
             destruct (N.eqb_spec c k) as [->|];
             [right; left; eexists; split; [|reflexivity]; unfold upper_special; cbn [In]; tauto|]
         end.
  right; right. split; [lia | reflexivity].
Qed.

Lemma upper_special_char : forall c p, In (c, p) upper_special -> upper_char c = p.
Proof.
  intros c p H. unfold upper_special in H. cbn [In] in H.
  repeat (destruct H as [H|H]; [inv H; reflexivity|]). contradiction.
Qed.

Lemma upper_char_ascii : forall c, c < 128 -> ~ (97 <= c <= 122) -> upper_char c = [c].
Proof.
  intros c H1 H2. destruct (upper_char_cases c) as [[H _] | [(p & H & _) | [_ H]]]; [lia| |exact H].
  unfold upper_special in H. cbn [In] in H.
  repeat (destruct H as [H|H]; [apply (f_equal fst) in H; cbn [fst] in H; lia|]). contradiction.
Qed.

Lemma upper_iff : forall w s, upper_word w = true ->
  (spells upper_special s w <-> to_upper s = w).
Proof.
  intros w s Hw; split.
  - intro H; revert Hw. induction H as [|c d s w L H IH|c p s w I H IH]; intro Hw; [reflexivity| |].
    + cbn [upper_word forallb] in Hw. apply andb_prop in Hw. destruct Hw as [Hd Hw].
      change (to_upper (c :: s)) with (upper_char c ++ to_upper s). rewrite IH by exact Hw.
      replace (upper_char c) with [d]; [reflexivity|].
      unfold same_letter in L.
      destruct (ascii_lower_cases c) as [[H1 E1]|[H1 E1]];
        destruct (ascii_lower_cases d) as [[H2 E2]|[H2 E2]]; rewrite E1, E2 in L.
      * assert (c = d) by lia. subst d. symmetry. apply upper_char_ascii; lia.
      * subst d. lia.
      * subst c. unfold upper_char.
        destruct ((97 <=? d + 32) && (d + 32 <=? 122)) eqn:X; [f_equal; lia|lia].
      * subst d. symmetry. apply upper_char_ascii; lia.
    + change (to_upper (c :: s)) with (upper_char c ++ to_upper s).
      rewrite (upper_special_char _ _ I), IH; [reflexivity|].
      unfold upper_word in *. rewrite forallb_app in Hw. apply andb_prop in Hw. tauto.
  - intros <-. clear Hw. induction s as [|c s IH]; [constructor|].
    change (to_upper (c :: s)) with (upper_char c ++ to_upper s).
    destruct (upper_char_cases c) as [[H E] | [(p & H & E) | [H E]]]; rewrite E.
    + apply spells_char; [|exact IH]. unfold same_letter.
      destruct (ascii_lower_cases c) as [[? ?]|[? ->]]; [lia|].
      destruct (ascii_lower_cases (c - 32)) as [[? ->]|[? ?]]; lia.
    + apply spells_special; assumption.
    + apply spells_char; [reflexivity | exact IH].
Qed.

Lemma lower_iff : forall w s, lower_word w = true ->
  (spells lower_special s w <-> to_lower s = w).
Proof.
  intros w s Hw; split.
  - intro H; revert Hw. induction H as [|c d s w L H IH|c p s w I H IH]; intro Hw; [reflexivity| |].
    + cbn [lower_word forallb] in Hw. apply andb_prop in Hw. destruct Hw as [Hd Hw].
      change (to_lower (c :: s)) with (lower_char c ++ to_lower s). rewrite IH by exact Hw.
      replace (lower_char c) with [d]; [reflexivity|].
      unfold same_letter in L. unfold lower_char.
      destruct (ascii_lower_cases c) as [[H1 E1]|[H1 E1]];
        destruct (ascii_lower_cases d) as [[H2 E2]|[H2 E2]]; rewrite E1, E2 in L; try lia;
        destruct ((65 <=? c) && (c <=? 90)) eqn:X; try lia; try (f_equal; lia).
      destruct (N.eqb_spec c 8490); [lia | f_equal; lia].
    + change (to_lower (c :: s)) with (lower_char c ++ to_lower s).
      destruct I as [I|[]]. inv I. rewrite IH; [reflexivity|].
      unfold lower_word in *. rewrite forallb_app in Hw. apply andb_prop in Hw. tauto.
  - intros <-. clear Hw. induction s as [|c s IH]; [constructor|].
    change (to_lower (c :: s)) with (lower_char c ++ to_lower s).
    unfold lower_char. destruct ((65 <=? c) && (c <=? 90)) eqn:X.
    + apply spells_char; [|exact IH]. unfold same_letter.
      destruct (ascii_lower_cases c) as [[? ->]|[? ?]]; [|lia].
      destruct (ascii_lower_cases (c + 32)) as [[? ?]|[? ->]]; lia.
    + destruct (N.eqb_spec c 8490) as [->|].
      * apply spells_special; [now left | exact IH].
      * apply spells_char; [reflexivity | exact IH].
Qed.

Lemma means_iff : forall s name, lower_word (of_string name) = true ->
  (means s name <-> to_lower s = of_string name).
Proof. intros. apply lower_iff. assumption. Qed.
Lemma means_upper_iff : forall s name, upper_word (of_string name) = true ->
  (means_upper s name <-> to_upper s = of_string name).
Proof. intros. apply upper_iff. assumption. Qed.

Lemma to_upper_idem : forall s, to_upper (to_upper s) = to_upper s.
Proof.
  induction s as [|c s IH]; [reflexivity|].
  change (to_upper (c :: s)) with (upper_char c ++ to_upper s).
  rewrite to_upper_app, IH. f_equal.
  destruct (upper_char_cases c) as [[H ->] | [(p & H & ->) | [H E]]].
  - change (upper_char (c - 32) ++ [] = [c - 32]). rewrite upper_char_ascii by lia. reflexivity.
  - unfold upper_special in H. cbn [In] in H.
    repeat (destruct H as [H|H]; [inv H; reflexivity|]). contradiction.
  - rewrite E. change (upper_char c ++ [] = [c]). rewrite E. reflexivity.
Qed.

(** Recasing a spelling gives a spelling of the same word. *)
Lemma spells_recased : forall special s t w, recased s t ->
  (forall c p, In (c, p) special -> ascii_lower c = c /\ forall d, ascii_lower d = c -> d = c) ->
  spells special s w -> spells special t w.
Proof.
  intros special s t w R Hsp H; revert t R.
  induction H as [|c d s w L H IH|c p s w I H IH]; intros t R; inv R.
  - constructor.
  - apply spells_char; [|auto]. unfold same_letter in *. congruence.
  - match goal with X : same_letter c ?y |- _ => assert (y = c) as -> end.
    { destruct (Hsp _ _ I) as [E U]. apply U. unfold same_letter in *. congruence. }
    apply spells_special; auto.
Qed.

(** ** Tables *)
Lemma table_iff : forall {A} (t : list (str * A)) (name : A -> string),
  Forall (fun kv => fst kv = of_string (name (snd kv))) t ->
  (forall v, assoc_str (of_string (name v)) t = Some v) ->
  forall x v, assoc_str x t = Some v <-> x = of_string (name v).
Proof.
  intros A t name F C x v; split.
  - intro H. apply assoc_str_In in H. rewrite Forall_forall in F. exact (F _ H).
  - intros ->. apply C.
Qed.

(** ** Results *)
Lemma map_err_ok : forall {E F A} (f : E -> F) (x : res E A) a,
  res_map_err f x = Ok a <-> x = Ok a.
Proof. intros E F A f [y|e|] a; cbn; split; intro H; inv H; reflexivity. Qed.

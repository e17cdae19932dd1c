(** * Lemmas for C76: the layout *)
From Coq Require Import List NArith ZArith Bool Ascii String Lia.
From Verif Require Import Str Num Net Types Ext Show Session Tools Serde Debug SpecDoc SpecItems SpecSerde SpecDebug StrLemmas NumLemmas NetLemmas PSerde.
Import ListNotations.
Open Scope N_scope.
Open Scope list_scope.

(** What holds of the leaves and the names of a value. *)
Inductive leaves (P32 P64 : N -> Prop) (PI PN : str -> Prop) : sv -> Prop :=
| leaves_bool b : leaves P32 P64 PI PN (SvBool b)
| leaves_uint bits n : leaves P32 P64 PI PN (SvUint bits n)
| leaves_f32 x : P32 x -> leaves P32 P64 PI PN (SvF32 x)
| leaves_f64 x : P64 x -> leaves P32 P64 PI PN (SvF64 x)
| leaves_str s : leaves P32 P64 PI PN (SvStr s)
| leaves_none : leaves P32 P64 PI PN SvNone
| leaves_some v : leaves P32 P64 PI PN v -> leaves P32 P64 PI PN (SvSome v)
| leaves_seq l : Forall (leaves P32 P64 PI PN) l -> leaves P32 P64 PI PN (SvSeq l)
| leaves_tuple l : Forall (leaves P32 P64 PI PN) l -> leaves P32 P64 PI PN (SvTuple l)
| leaves_struct n l : PN n -> Forall (fun f => PN (fst f) /\ leaves P32 P64 PI PN (snd f)) l -> leaves P32 P64 PI PN (SvStruct n l)
| leaves_unit e i n : PN n -> leaves P32 P64 PI PN (SvUnitVariant e i n)
| leaves_new e i n v : PN n -> (n = lit "Ip" -> exists s, v = SvStr s /\ PI s) -> leaves P32 P64 PI PN v ->
    leaves P32 P64 PI PN (SvNewtypeVariant e i n v)
| leaves_tuple_variant e i n l : PN n -> Forall (leaves P32 P64 PI PN) l -> leaves P32 P64 PI PN (SvTupleVariant e i n l)
| leaves_struct_variant e i n l : PN n -> Forall (fun f => PN (fst f) /\ leaves P32 P64 PI PN (snd f)) l ->
    leaves P32 P64 PI PN (SvStructVariant e i n l).

Section Text.
Context (printable : char -> bool) (debug_f32 : f32 -> str) (debug_f64 : f64 -> str).
Notation out := (laid_out printable debug_f32 debug_f64).

(** ** Strings *)
Lemma escape_spelled : forall c, spelled printable c (escape_debug printable c).
Proof. clear debug_f32 debug_f64.
  intro c. unfold escape_debug.
  destruct (N.eqb_spec c 0) as [->|H0]; [apply spelled_named; cbn; auto|].
  destruct (N.eqb_spec c 9) as [->|H9]; [apply spelled_named; cbn; auto|].
  destruct (N.eqb_spec c 10) as [->|H10]; [apply spelled_named; cbn; auto|].
  destruct (N.eqb_spec c 13) as [->|H13]; [apply spelled_named; cbn; auto|].
  destruct (N.eqb_spec c 34) as [->|H34]; [apply spelled_named; cbn; auto 10|].
  destruct (N.eqb_spec c 92) as [->|H92]; [apply spelled_named; cbn; auto 10|]. cbn [orb].
  destruct (c <? 32) eqn:A; cbn [orb].
  { apply spelled_number; [unfold clean; lia | cbn; lia]. }
  destruct ((127 <=? c) && (c <=? 159)) eqn:B; cbn [orb].
  { apply spelled_number; [unfold clean; lia | cbn; lia]. }
  destruct ((160 <=? c) && negb (printable c)) eqn:C.
  { apply andb_prop in C. destruct C as [C1 C2]. apply negb_true_iff in C2. apply spelled_number; [|cbn; lia].
    unfold clean. intros (_ & _ & K). rewrite K in C2 by lia. discriminate C2. }
  apply spelled_itself; auto. unfold clean. split; [lia|]. split; [lia|]. intro K.
  destruct (printable c); [reflexivity|]. exfalso. assert (160 <=? c = true) as R by (apply N.leb_le; exact K). rewrite R in C. discriminate C.
Qed.
Lemma quoted_out : forall s, in_quotes printable s (quoted printable s).
Proof. clear debug_f32 debug_f64.
  intro s. unfold quoted. rewrite flat_map_concat_map.
  change (34 :: List.concat (map (escape_debug printable) s) ++ [34]) with (lit """" ++ List.concat (map (escape_debug printable) s) ++ lit """").
  constructor. induction s as [|c s IH]; cbn [map]; constructor; [apply escape_spelled | exact IH].
Qed.

(** ** One line *)
Lemma values_out : forall (f : sv -> str) L d l, (forall v, In v l -> out L d v (f v)) -> Forall2 (out L d) l (map f l).
Proof. intros f L d l H. induction l as [|v l IH]; cbn [map]; constructor; [apply H; left; reflexivity | apply IH; intros w I; apply H; right; exact I]. Qed.
Lemma fields_out : forall (f : sv -> str) L d (l : list (str * sv)), (forall k v, In (k, v) l -> out L d v (f v)) ->
  Forall2 (fun p t => out L d (snd p) t) l (map (fun p => f (snd p)) l) /\
  map (fun p => match p with (k, v) => k ++ lit ": " ++ f v end) l =
  map (fun p => fst (fst p) ++ lit ": " ++ snd p) (combine l (map (fun p => f (snd p)) l)).
Proof.
  intros f L d l H. induction l as [|[k v] l IH]; cbn [map combine fst snd]; [split; constructor|].
  destruct IH as [I1 I2]; [intros k' w J; apply (H k'); right; exact J|]. split.
  - constructor; [apply (H k); left; reflexivity | exact I1].
  - f_equal. exact I2.
Qed.
Lemma one_line : forall b l, enclosed OneLine 0 b l = opening b ++ match b with Curly => lit " " | _ => [] end ++ join (lit ", ") l ++ match b with Curly => lit " " | _ => [] end ++ closing b.
Proof. reflexivity. Qed.
Lemma one_line_depth : forall d b l, enclosed OneLine d b l = enclosed OneLine 0 b l.
Proof. reflexivity. Qed.
Lemma size_in : forall l v, In v l -> (vsize v <= list_sum (map vsize l))%nat.
Proof. intros. apply list_sum_in. assumption. Qed.
Lemma size_field : forall (l : list (str * sv)) k v, In (k, v) l -> (vsize v <= list_sum (map (fun f : str * sv => match f with (_, v) => vsize v end) l))%nat.
Proof. intros l k v H. apply (list_sum_in (fun f : str * sv => match f with (_, v) => vsize v end) l (k, v) H). Qed.
Lemma leaf_in : forall P32 P64 PI PN l v, Forall (leaves P32 P64 PI PN) l -> In v l -> leaves P32 P64 PI PN v.
Proof. intros. rewrite Forall_forall in *. auto. Qed.
Lemma leaf_field : forall P32 P64 PI PN (l : list (str * sv)) k v, Forall (fun f => PN (fst f) /\ leaves P32 P64 PI PN (snd f)) l -> In (k, v) l -> leaves P32 P64 PI PN v.
Proof. intros P32 P64 PI PN l k v H I. rewrite Forall_forall in H. apply (H _ I). Qed.
Lemma ip_text_is : forall s, ip_text (lit "Ip") (SvStr s) = Some s.
Proof. intro s. unfold ip_text. rewrite (proj2 (str_eqb_eq _ _) eq_refl). reflexivity. Qed.
Lemma ip_text_not : forall n v, n <> lit "Ip" -> ip_text n v = None.
Proof. intros n v H. unfold ip_text. destruct v; try reflexivity. destruct (str_eqb n (lit "Ip")) eqn:Q; [|reflexivity]. apply str_eqb_eq in Q. contradiction. Qed.
Definition is_ip (n : str) : {n = lit "Ip"} + {n <> lit "Ip"} := list_eq_dec N.eq_dec n (lit "Ip").

Lemma compact_out_n : forall P32 P64 PI PN n v d, (vsize v < n)%nat -> leaves P32 P64 PI PN v ->
  out OneLine d v (compact printable debug_f32 debug_f64 v).
Proof.
  intros P32 P64 PI PN. induction n as [|n IH]; intros v d Sz Lv; [lia|].
  inversion Lv; subst; cbn [vsize] in Sz; cbn [compact].
  - apply out_bool.
  - apply out_uint.
  - apply out_f32.
  - apply out_f64.
  - apply out_str, quoted_out.
  - apply out_none.
  - apply (out_some _ _ _ OneLine d v0). apply IH; [lia | assumption].
  - destruct l as [|x l]; [apply out_empty|]. apply (out_seq _ _ _ OneLine d (x :: l)); [discriminate|]. apply values_out.
    intros w I. apply IH; [pose proof (size_in _ _ I); lia | eapply leaf_in; eauto].
  - apply (out_tuple _ _ _ OneLine d l). apply values_out.
    intros w I. apply IH; [pose proof (size_in _ _ I); lia | eapply leaf_in; eauto].
  - destruct (fields_out (compact printable debug_f32 debug_f64) OneLine (S d) l) as [F Q].
    { intros k w I. apply IH; [pose proof (size_field _ _ _ I); lia | eapply leaf_field; eauto]. }
    rewrite Q. apply (out_struct _ _ _ OneLine d n0 l _ F).
  - apply out_unit.
  - destruct (is_ip n0) as [->|K].
    + destruct H0 as (s & -> & _); [reflexivity|]. rewrite ip_text_is. apply (out_ip _ _ _ OneLine d).
    + rewrite ip_text_not by exact K. apply (out_new _ _ _ OneLine d); [exact K|]. apply IH; [lia | assumption].
  - apply (out_tuple_variant _ _ _ OneLine d). apply values_out.
    intros w I. apply IH; [pose proof (size_in _ _ I); lia | eapply leaf_in; eauto].
  - destruct (fields_out (compact printable debug_f32 debug_f64) OneLine (S d) l) as [F Q].
    { intros k w I. apply IH; [pose proof (size_field _ _ _ I); lia | eapply leaf_field; eauto]. }
    rewrite Q. apply (out_struct_variant _ _ _ OneLine d e i n0 l _ F).
Qed.

(** ** Indentation *)
Definition flat (s : str) : Prop := forallb (fun c => negb (c =? 10)) s = true.
Definition shifts (t t' : str) : Prop := forall b, pad_from false (t ++ b) = t' ++ pad_from false b.
Lemma shifts_app : forall a a' b b', shifts a a' -> shifts b b' -> shifts (a ++ b) (a' ++ b').
Proof. intros a a' b b' H K c. rewrite <- !app_assoc, H, K. reflexivity. Qed.
Lemma shifts_nil : shifts [] [].
Proof. intro b. reflexivity. Qed.
Lemma shifts_flat : forall s, flat s -> shifts s s.
Proof.
  intros s H b. unfold flat in H. induction s as [|c s IH]; [reflexivity|]. cbn [forallb] in H. apply andb_prop in H. destruct H as [H1 H2].
  cbn [app pad_from]. apply negb_true_iff in H1. rewrite H1, IH by exact H2. reflexivity.
Qed.
Lemma pad_true : forall s, s <> [] -> pad_from true s = lit "    " ++ pad_from false s.
Proof. intros [|c s] H; [congruence|]. reflexivity. Qed.
Lemma blanks_flat : forall k, flat (repeat 32 k).
Proof. intro k. unfold flat. induction k; [reflexivity|]. cbn [repeat forallb]. rewrite IHk. reflexivity. Qed.
Lemma newline_flat_tail : forall d, exists r, newline d = 10 :: r /\ flat r.
Proof. intro d. eexists. split; [reflexivity | apply blanks_flat]. Qed.
Lemma four_more : forall d, lit "    " ++ repeat 32 (4 * d) = repeat 32 (4 * S d).
Proof. intro d. replace (4 * S d)%nat with (4 + 4 * d)%nat by lia. rewrite repeat_app. reflexivity. Qed.
Lemma shifts_newline : forall d x x', x <> [] -> shifts x x' -> shifts (newline d ++ x) (newline (S d) ++ x').
Proof.
  intros d x x' N H b. unfold newline. cbn [app pad_from]. change (10 =? 10) with true.
  rewrite pad_true by (destruct (repeat 32 (4 * d)); [cbn; destruct x; [congruence|discriminate] | discriminate]).
  rewrite <- app_assoc, (shifts_flat _ (blanks_flat (4 * d))), H, app_assoc, four_more, <- app_assoc. reflexivity.
Qed.
Lemma flat_app : forall a b, flat a -> flat b -> flat (a ++ b).
Proof. intros a b H K. unfold flat in *. rewrite forallb_app, H, K. reflexivity. Qed.
Lemma flat_not : forall s, (forall c, In c s -> c <> 10) -> flat s.
Proof. intros s H. unfold flat. apply forallb_forall. intros c I. apply negb_true_iff, N.eqb_neq, H, I. Qed.
Lemma word_flat : forall s, forallb word_char s = true -> flat s.
Proof. intros s H. apply flat_not. intros c I ->. rewrite forallb_forall in H. apply H in I. discriminate I. Qed.
Lemma clean_flat : forall s, Forall (clean printable) s -> flat s.
Proof. clear debug_f32 debug_f64. intros s H. apply flat_not. intros c I ->. rewrite Forall_forall in H. apply H in I. unfold clean in I. lia. Qed.
Lemma number_word : forall n, a_word (show_N n).
Proof. clear printable debug_f32 debug_f64.
  intro n. split; [apply show_N_nonempty|]. eapply forallb_weaken; [|apply show_N_chars]. intro c. unfold dec_char, word_char. lia.
Qed.
Lemma hex_clean : forall n, Forall (clean printable) (show_hex n).
Proof. clear debug_f32 debug_f64.
  intro n. apply Forall_forall. intros c I. pose proof (show_hex_chars n) as H. rewrite forallb_forall in H. apply H in I.
  unfold hex_char in I. unfold clean. lia.
Qed.
Lemma ascii_clean : forall s, Forall (fun c => 32 <= c < 127) s -> Forall (clean printable) s.
Proof. clear debug_f32 debug_f64. intros s H. eapply Forall_impl; [|exact H]. cbn beta. intros c K. unfold clean. lia. Qed.
Lemma word_clean : forall s, forallb word_char s = true -> Forall (clean printable) s.
Proof. clear debug_f32 debug_f64.
  intros s H. apply ascii_clean. apply Forall_forall. intros c I. rewrite forallb_forall in H. apply H in I. unfold word_char in I. cbn in I. lia.
Qed.
Lemma spelled_clean : forall c t, spelled printable c t -> Forall (clean printable) t.
Proof. clear debug_f32 debug_f64.
  intros c t H. destruct H as [c H _ _ | c n H | c _ _].
  - constructor; [exact H | constructor].
  - apply ascii_clean. cbn in H. repeat match goal with H : _ \/ _ |- _ => destruct H as [H|H]; [injection H as <- <-; repeat constructor; lia|] end. destruct H.
  - rewrite !Forall_app. split; [apply ascii_clean; repeat constructor; lia|]. split; [apply hex_clean | apply ascii_clean; repeat constructor; lia].
Qed.
Lemma quotes_clean : forall s t, in_quotes printable s t -> Forall (clean printable) t.
Proof. clear debug_f32 debug_f64.
  intros s t H. destruct H as [s l H]. rewrite !Forall_app.
  assert (Q : Forall (clean printable) (lit """")) by (apply ascii_clean; repeat constructor; lia).
  split; [exact Q|]. split; [|exact Q]. induction H as [|c x s l H K IH]; cbn [List.concat]; [constructor|]. apply Forall_app. split; [exact (spelled_clean _ _ H) | exact IH].
Qed.

Lemma opening_flat : forall b, flat (opening b).
Proof. intros [| |]; reflexivity. Qed.
Lemma closing_flat : forall b, flat (closing b).
Proof. intros [| |]; reflexivity. Qed.
Lemma closing_some : forall b, closing b <> [].
Proof. intros [| |]; discriminate. Qed.
Lemma enclosed_shifts : forall d b ts ts', Forall2 shifts ts ts' -> shifts (enclosed Indented d b ts) (enclosed Indented (S d) b ts').
Proof.
  intros d b ts ts' H. unfold enclosed. apply shifts_app; [apply shifts_flat, opening_flat|].
  apply shifts_app; [|apply shifts_newline; [apply closing_some | apply shifts_flat, closing_flat]].
  induction H as [|t t' ts ts' H K IH]; cbn [flat_map]; [exact shifts_nil|]. apply shifts_app; [|exact IH].
  apply shifts_newline; [destruct t; discriminate|]. apply shifts_app; [exact H|]. apply shifts_flat. reflexivity.
Qed.
Lemma values_shift : forall d l ts, Forall2 (out Indented d) l ts ->
  (forall v t, In v l -> out Indented d v t -> exists t', out Indented (S d) v t' /\ shifts t t') ->
  exists ts', Forall2 (out Indented (S d)) l ts' /\ Forall2 shifts ts ts'.
Proof.
  intros d l ts H. induction H as [|v t l ts H K IH]; intro S; [exists []; split; constructor|].
  destruct (S v t) as (t' & A & B); [left; reflexivity | exact H|].
  destruct IH as (ts' & C & D); [intros w u I; apply S; right; exact I|]. exists (t' :: ts'). split; constructor; assumption.
Qed.
Lemma fields_shift : forall (PN : str -> Prop) d (l : list (str * sv)) ts, Forall2 (fun f t => out Indented d (snd f) t) l ts ->
  (forall k v t, In (k, v) l -> out Indented d v t -> exists t', out Indented (S d) v t' /\ shifts t t') ->
  (forall k v, In (k, v) l -> flat k) ->
  exists ts', Forall2 (fun f t => out Indented (S d) (snd f) t) l ts' /\
    Forall2 shifts (map (fun p => fst (fst p) ++ lit ": " ++ snd p) (combine l ts)) (map (fun p => fst (fst p) ++ lit ": " ++ snd p) (combine l ts')).
Proof.
  intros PN d l ts H. induction H as [|[k v] t l ts H K IH]; intros S N; [exists []; split; constructor|].
  destruct (S k v t) as (t' & A & B); [left; reflexivity | exact H|].
  destruct IH as (ts' & C & D); [intros k' w u I; apply (S k'); right; exact I | intros k' w I; apply (N k' w); right; exact I|].
  exists (t' :: ts'). split; [constructor; assumption|]. cbn [combine map]. constructor; [|exact D]. cbn [fst snd].
  apply shifts_app; [apply shifts_flat, (N k v); left; reflexivity|]. apply shifts_app; [apply shifts_flat; reflexivity | exact B].
Qed.
Definition lines_kept (v : sv) : Prop := leaves (fun x => flat (debug_f32 x)) (fun x => flat (debug_f64 x)) flat flat v.
Lemma key_flat : forall P32 P64 PI PN (l : list (str * sv)) k v, Forall (fun f => PN (fst f) /\ leaves P32 P64 PI PN (snd f)) l -> In (k, v) l -> PN k.
Proof. intros P32 P64 PI PN l k v H I. rewrite Forall_forall in H. apply (H _ I). Qed.
Lemma shift_out : forall n v d t, (vsize v < n)%nat -> lines_kept v -> out Indented d v t -> exists t', out Indented (S d) v t' /\ shifts t t'.
Proof.
  unfold lines_kept. induction n as [|n IH]; intros v d t Sz Lv H; [lia|].
  assert (KL : forall l d ts, (list_sum (map vsize l) < n)%nat -> Forall lines_kept l -> Forall2 (out Indented d) l ts ->
    exists ts', Forall2 (out Indented (S d)) l ts' /\ Forall2 shifts ts ts').
  { intros l d' ts Z F K. apply (values_shift _ _ _ K). intros w u I. apply IH; [pose proof (size_in _ _ I); lia | eapply leaf_in; eauto]. }
  assert (KF : forall (l : list (str * sv)) d ts, (list_sum (map (fun f : str * sv => match f with (_, v) => vsize v end) l) < n)%nat ->
    Forall (fun f => flat (fst f) /\ lines_kept (snd f)) l -> Forall2 (fun f t => out Indented d (snd f) t) l ts ->
    exists ts', Forall2 (fun f t => out Indented (S d) (snd f) t) l ts' /\
      Forall2 shifts (map (fun p => fst (fst p) ++ lit ": " ++ snd p) (combine l ts)) (map (fun p => fst (fst p) ++ lit ": " ++ snd p) (combine l ts'))).
  { intros l d' ts Z F K. apply (fields_shift flat _ _ _ K).
    - intros k w u I. apply IH; [pose proof (size_field _ _ _ I); lia | eapply leaf_field; eauto].
    - intros k w I. eapply key_flat; eauto. }
  inversion H; subst; inversion Lv; subst; cbn [vsize] in Sz.
  - eexists. split; [apply out_bool|]. apply shifts_flat. destruct b; reflexivity.
  - eexists. split; [apply out_uint|]. apply shifts_flat, word_flat, number_word.
  - eexists. split; [apply out_f32|]. apply shifts_flat; assumption.
  - eexists. split; [apply out_f64|]. apply shifts_flat; assumption.
  - eexists. split; [apply out_str; eassumption|]. eapply shifts_flat, clean_flat, quotes_clean; eassumption.
  - eexists. split; [apply out_none|]. apply shifts_flat. reflexivity.
  - destruct (IH v0 (S d) t0 ltac:(lia) ltac:(assumption) ltac:(assumption)) as (t' & A & B). eexists. split; [apply out_some, A|].
    apply shifts_app; [apply shifts_flat; reflexivity|]. apply enclosed_shifts. constructor; [exact B | constructor].
  - eexists. split; [apply out_empty|]. apply shifts_flat. reflexivity.
  - destruct (KL l (S d) ts) as (ts' & A & B); [lia | assumption | assumption |]. eexists. split; [apply out_seq; eassumption|]. apply enclosed_shifts, B.
  - destruct (KL l (S d) ts) as (ts' & A & B); [lia | assumption | assumption |]. eexists. split; [apply out_tuple; eassumption|]. apply enclosed_shifts, B.
  - destruct (KF l (S d) ts) as (ts' & A & B); [lia | assumption | assumption |]. eexists. split; [apply out_struct; eassumption|].
    apply shifts_app; [apply shifts_flat; assumption|]. apply enclosed_shifts, B.
  - eexists. split; [apply out_unit|]. apply shifts_flat. assumption.
  - eexists. split; [apply out_ip|]. apply shifts_app; [apply shifts_flat; reflexivity|]. apply enclosed_shifts. constructor; [|constructor].
    match goal with K : _ = _ -> exists _, _ |- _ => destruct K as (s' & Q & F); [reflexivity|]; injection Q as <-; apply shifts_flat, F end.
  - destruct (IH v0 (S d) t0 ltac:(lia) ltac:(assumption) ltac:(assumption)) as (t' & A & B). eexists. split; [apply out_new; eassumption|].
    apply shifts_app; [apply shifts_flat; assumption|]. apply enclosed_shifts. constructor; [exact B | constructor].
  - destruct (KL l (S d) ts) as (ts' & A & B); [lia | assumption | assumption |]. eexists. split; [apply out_tuple_variant; eassumption|].
    apply shifts_app; [apply shifts_flat; assumption|]. apply enclosed_shifts, B.
  - destruct (KF l (S d) ts) as (ts' & A & B); [lia | assumption | assumption |]. eexists. split; [apply out_struct_variant; eassumption|].
    apply shifts_app; [apply shifts_flat; assumption|]. apply enclosed_shifts, B.
Qed.

(** ** Many lines *)
Lemma entry_shifts : forall t t', shifts t t' -> entry t = lit "    " ++ t' ++ [44; 10].
Proof. intros t t' H. unfold entry. rewrite pad_true by (destruct t; discriminate). rewrite H. reflexivity. Qed.
Lemma entries : forall l ts c, Forall2 shifts l ts ->
  [10] ++ List.concat (map entry l) ++ c = flat_map (fun t => newline 1 ++ t ++ lit ",") ts ++ newline 0 ++ c.
Proof.
  intros l ts c H. induction H as [|t t' l ts H K IH]; [reflexivity|]. cbn [map List.concat flat_map].
  rewrite (entry_shifts _ _ H). rewrite <- !app_assoc, <- IH. reflexivity.
Qed.
Lemma tuple_entries : forall l ts, Forall2 shifts l ts -> lit "(" ++ [10] ++ List.concat (map entry l) ++ lit ")" = enclosed Indented 0 Round ts.
Proof. intros l ts H. rewrite (entries _ _ _ H). reflexivity. Qed.
Lemma seq_entries : forall l ts, Forall2 shifts l ts -> lit "[" ++ [10] ++ List.concat (map entry l) ++ lit "]" = enclosed Indented 0 Square ts.
Proof. intros l ts H. rewrite (entries _ _ _ H). reflexivity. Qed.
Lemma struct_entries : forall l ts, Forall2 shifts l ts -> lit " {" ++ [10] ++ List.concat (map entry l) ++ lit "}" = enclosed Indented 0 Curly ts.
Proof. intros l ts H. rewrite (entries _ _ _ H). reflexivity. Qed.
Lemma values_entered : forall (f : sv -> str) l, (forall v, In v l -> out Indented 0 v (f v)) -> Forall lines_kept l ->
  exists ts, Forall2 (out Indented 1) l ts /\ Forall2 shifts (map f l) ts.
Proof.
  intros f l H F. apply (values_shift 0 l). { apply values_out, H. }
  intros v t I K. rewrite Forall_forall in F. exact (shift_out (S (vsize v)) v 0 t ltac:(lia) (F v I) K).
Qed.
Lemma fields_entered : forall (f : sv -> str) (l : list (str * sv)), (forall k v, In (k, v) l -> out Indented 0 v (f v)) ->
  Forall (fun f => flat (fst f) /\ lines_kept (snd f)) l ->
  exists ts, Forall2 (fun f t => out Indented 1 (snd f) t) l ts /\
    Forall2 shifts (map (fun p => match p with (k, v) => k ++ lit ": " ++ f v end) l) (map (fun p => fst (fst p) ++ lit ": " ++ snd p) (combine l ts)).
Proof.
  intros f l H F. destruct (fields_out f Indented 0 l H) as [A ->]. apply (fields_shift flat 0 l _ A).
  - intros k v t I K. rewrite Forall_forall in F. exact (shift_out (S (vsize v)) v 0 t ltac:(lia) (proj2 (F _ I)) K).
  - intros k v I. rewrite Forall_forall in F. exact (proj1 (F _ I)).
Qed.
Lemma pretty_out_n : forall n v, (vsize v < n)%nat -> lines_kept v -> out Indented 0 v (pretty printable debug_f32 debug_f64 v).
Proof.
  unfold lines_kept. induction n as [|n IH]; intros v Sz Lv; [lia|].
  assert (KL : forall l, (list_sum (map vsize l) < n)%nat -> Forall lines_kept l ->
    exists ts, Forall2 (out Indented 1) l ts /\ Forall2 shifts (map (pretty printable debug_f32 debug_f64) l) ts).
  { intros l Z F. apply values_entered; [|exact F]. intros w I. apply IH; [pose proof (size_in _ _ I); lia | eapply leaf_in; eauto]. }
  assert (KF : forall (l : list (str * sv)), (list_sum (map (fun f : str * sv => match f with (_, v) => vsize v end) l) < n)%nat ->
    Forall (fun f => flat (fst f) /\ lines_kept (snd f)) l ->
    exists ts, Forall2 (fun f t => out Indented 1 (snd f) t) l ts /\
      Forall2 shifts (map (fun p => match p with (k, v) => k ++ lit ": " ++ pretty printable debug_f32 debug_f64 v end) l) (map (fun p => fst (fst p) ++ lit ": " ++ snd p) (combine l ts))).
  { intros l Z F. apply fields_entered; [|exact F]. intros k w I. apply IH; [pose proof (size_field _ _ _ I); lia | eapply leaf_field; eauto]. }
  inversion Lv; subst; cbn [vsize] in Sz; cbn [pretty].
  - apply out_bool.
  - apply out_uint.
  - apply out_f32.
  - apply out_f64.
  - apply out_str, quoted_out.
  - apply out_none.
  - destruct (shift_out _ v0 0 _ (Nat.lt_succ_diag_r _) H (IH v0 ltac:(lia) H)) as (t' & A & B).
    rewrite (tuple_entries _ [t']) by (constructor; [exact B | constructor]). apply out_some, A.
  - destruct l as [|x l]; [apply out_empty|]. destruct (KL (x :: l)) as (ts & A & B); [lia | assumption|].
    rewrite (seq_entries _ ts) by exact B. apply out_seq; [discriminate | exact A].
  - destruct (KL l) as (ts & A & B); [lia | assumption|]. rewrite (tuple_entries _ ts) by exact B. apply out_tuple, A.
  - destruct (KF l) as (ts & A & B); [lia | assumption|]. rewrite (struct_entries _ _ B). apply out_struct, A.
  - apply out_unit.
  - destruct (is_ip n0) as [->|K].
    + destruct H0 as (s & -> & F); [reflexivity|]. rewrite ip_text_is.
      rewrite (tuple_entries _ [s]) by (constructor; [apply shifts_flat, F | constructor]). apply out_ip.
    + rewrite ip_text_not by exact K. destruct (shift_out _ v0 0 _ (Nat.lt_succ_diag_r _) H1 (IH v0 ltac:(lia) H1)) as (t' & A & B).
      rewrite (tuple_entries _ [t']) by (constructor; [exact B | constructor]). apply out_new; assumption.
  - destruct (KL l) as (ts & A & B); [lia | assumption|]. rewrite (tuple_entries _ ts) by exact B. apply out_tuple_variant, A.
  - destruct (KF l) as (ts & A & B); [lia | assumption|]. rewrite (struct_entries _ _ B). apply out_struct_variant, A.
Qed.

(** ** Clean texts *)
Definition all_clean (v : sv) : Prop := leaves (fun x => Forall (clean printable) (debug_f32 x)) (fun x => Forall (clean printable) (debug_f64 x))
  (Forall (clean printable)) (Forall (clean printable)) v.
Definition clean_or_newline (L : layout) (c : char) : Prop := clean printable c \/ (L = Indented /\ c = 10).
Lemma lit_clean : forall L s, Forall (fun c => 32 <= c < 127) s -> Forall (clean_or_newline L) s.
Proof. clear debug_f32 debug_f64. intros L s H. apply ascii_clean in H. eapply Forall_impl; [|exact H]. intros c K. left. exact K. Qed.
Lemma clean_lines : forall L s, Forall (clean printable) s -> Forall (clean_or_newline L) s.
Proof. intros L s H. eapply Forall_impl; [|exact H]. intros c K. left. exact K. Qed.
Ltac ascii := apply lit_clean; repeat constructor; lia.
Lemma newline_clean : forall d, Forall (clean_or_newline Indented) (newline d).
Proof. clear debug_f32 debug_f64.
  intro d. constructor; [right; split; reflexivity|]. apply lit_clean. apply Forall_forall. intros c I. apply repeat_spec in I. lia.
Qed.
Lemma join_clean : forall L l, Forall (Forall (clean_or_newline L)) l -> Forall (clean_or_newline L) (join (lit ", ") l).
Proof. clear debug_f32 debug_f64.
  intros L l H. induction H as [|x l H K IH]; [constructor|]. destruct l as [|y l]; [exact H|]. rewrite join_cons by discriminate.
  rewrite !Forall_app. split; [exact H|]. split; [ascii | exact IH].
Qed.
Lemma enclosed_clean : forall L d b ts, Forall (Forall (clean_or_newline L)) ts -> Forall (clean_or_newline L) (enclosed L d b ts).
Proof. clear debug_f32 debug_f64.
  intros L d b ts H. unfold enclosed. destruct L.
  - rewrite !Forall_app. repeat split; try (apply join_clean; exact H); destruct b; try ascii; constructor.
  - rewrite !Forall_app. split; [destruct b; ascii|]. split; [|split; [apply newline_clean | destruct b; ascii]].
    induction H as [|t ts H K IH]; cbn [flat_map]; [constructor|]. rewrite !Forall_app. split; [|exact IH]. split; [apply newline_clean|]. split; [exact H | ascii].
Qed.
Lemma out_clean : forall n L v d t, (vsize v < n)%nat -> all_clean v -> out L d v t -> Forall (clean_or_newline L) t.
Proof.
  unfold all_clean. induction n as [|n IH]; intros L v d t Sz Lv H; [lia|].
  assert (KL : forall l d ts, (list_sum (map vsize l) < n)%nat -> Forall all_clean l -> Forall2 (out L d) l ts -> Forall (Forall (clean_or_newline L)) ts).
  { intros l d' ts Z F K. induction K as [|w u l ts K K' IHl]; [constructor|]. cbn in Z. inversion F; subst. constructor; [apply (IH L w d'); auto; lia|].
    apply IHl; [unfold list_sum; lia | assumption]. }
  assert (KF : forall (l : list (str * sv)) d ts, (list_sum (map (fun f : str * sv => match f with (_, v) => vsize v end) l) < n)%nat ->
    Forall (fun f => Forall (clean printable) (fst f) /\ all_clean (snd f)) l -> Forall2 (fun f t => out L d (snd f) t) l ts ->
    Forall (Forall (clean_or_newline L)) (map (fun p => fst (fst p) ++ lit ": " ++ snd p) (combine l ts))).
  { intros l d' ts Z F K. induction K as [|[k w] u l ts K K' IHl]; [constructor|]. cbn in Z. inversion F as [|? ? [Fk Fw] F']; subst. cbn [combine map fst snd] in *. constructor.
    - rewrite !Forall_app. split; [apply clean_lines, Fk|]. split; [ascii|]. apply (IH L w d'); auto; lia.
    - apply IHl; [unfold list_sum; lia | assumption]. }
  inversion H; subst; inversion Lv; subst; cbn [vsize] in Sz; rewrite ?Forall_app; repeat split;
    try (apply clean_lines; assumption); try apply enclosed_clean;
    try (eapply KL; eauto; lia); try (eapply KF; eauto; lia); try (constructor; [eapply IH; eauto; lia | constructor]).
  - destruct b; ascii.
  - apply clean_lines, word_clean, number_word.
  - apply clean_lines. eapply quotes_clean; eassumption.
  - ascii.
  - ascii.
  - ascii.
  - constructor; [|constructor]. match goal with K : _ = _ -> exists _, _ |- _ => destruct K as (s' & Q & F); [reflexivity|]; injection Q as <-; apply clean_lines, F end.
Qed.
End Text.

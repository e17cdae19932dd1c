(** * Lemmas for C76: the text tells values of a shape apart *)
From Coq Require Import List NArith ZArith Bool Ascii String Lia.
From Verif Require Import Str Num Net Types Ext Show Session Tools Serde Debug SpecDoc SpecItems SpecSerde SpecDebug StrLemmas NumLemmas NetLemmas PVal5 PSerde PDebug.
Import ListNotations.
Open Scope N_scope.
Open Scope list_scope.

(** ** Words *)
Definition after (p : char -> bool) (r : str) : Prop := match r with [] => True | c :: _ => p c = false end.
Lemma run_read : forall p w w' r r', forallb p w = true -> forallb p w' = true -> after p r -> after p r' -> w ++ r = w' ++ r' -> w = w' /\ r = r'.
Proof.
  intros p w. induction w as [|c w IH]; intros [|c' w'] r r' H H' A A' Q; cbn [app forallb] in *.
  - auto.
  - exfalso. apply andb_prop in H'. subst r. cbn in A. destruct H'. congruence.
  - exfalso. apply andb_prop in H. subst r'. cbn in A'. destruct H. congruence.
  - injection Q as -> Q. apply andb_prop in H. apply andb_prop in H'. destruct (IH w' r r') as [-> ->]; tauto.
Qed.
Notation after_word := (after word_char).
Lemma show_hex_inj : forall a b, show_hex a = show_hex b -> a = b.
Proof.
  intros a b Q. pose proof (parse_show_hex (N.max a b) a 0 ltac:(lia)) as A. pose proof (parse_show_hex (N.max a b) b 0 ltac:(lia)) as B.
  rewrite Q in A. congruence.
Qed.

(** ** Shapes whose names are words *)
Definition wordy (n : string) : bool := negb (String.eqb n "") && forallb word_char (of_string n).
Lemma wordy_word : forall n, wordy n = true -> a_word (of_string n).
Proof.
  intros n H. unfold wordy in H. apply andb_prop in H. destruct H as [H1 H2]. split; [|exact H2]. destruct n; [discriminate H1|]. discriminate.
Qed.
Fixpoint worded (s : schema) : bool :=
  match s with
  | ScOption s | ScSeq s => worded s
  | ScTuple l => forallb worded l
  | ScStruct n l => wordy n && forallb (fun f => match f with (_, s) => worded s end) l
  | ScEnum _ l =>
      forallb (fun f => match f with (n, sh) => wordy n &&
        match sh with
        | VUnit => true
        | VNew s => worded s
        | VTuple l => forallb worded l
        | VStruct l => forallb (fun f => match f with (_, s) => worded s end) l
        end end) l
  | ScError => false
  | _ => true
  end.
Definition variant_worded (f : string * variant_shape schema) : bool :=
  match f with (n, sh) => wordy n &&
    match sh with
    | VUnit => true
    | VNew s => worded s
    | VTuple l => forallb worded l
    | VStruct l => forallb (fun f => match f with (_, s) => worded s end) l
    end end.
Lemma variant_word : forall vs i v sh, forallb variant_worded vs = true -> nth_error vs i = Some (v, sh) -> a_word (of_string v) /\ variant_worded (v, sh) = true.
Proof.
  intros vs i v sh F H. rewrite forallb_forall in F. pose proof (F _ (nth_error_In _ _ H)) as K. split; [|exact K].
  unfold variant_worded in K. apply andb_prop in K. apply wordy_word, K.
Qed.

Section Text.
Context (printable : char -> bool) (debug_f32 : f32 -> str) (debug_f64 : f64 -> str) (url_error : str -> str) (addr_error : str).
Context (T : debug_texts debug_f32 debug_f64 url_error addr_error).
Notation out := (laid_out printable debug_f32 debug_f64).

(** ** Quotes *)
Lemma spelled_read : forall c c' x x' r r', spelled printable c x -> spelled printable c' x' -> x ++ r = x' ++ r' -> c = c' /\ r = r'.
Proof.
  intros c c' x x' r r' H H' Q. destruct H as [c C N34 N92 | c n I | c C I], H' as [c' C' N34' N92' | c' n' I' | c' C' I']; cbn [app] in Q.
  - injection Q as -> ->. auto.
  - injection Q as -> _. congruence.
  - injection Q as -> _. congruence.
  - injection Q as <- _. congruence.
  - injection Q as -> ->. split; [|reflexivity]. cbn in I, I'.
    repeat match goal with H : _ \/ _ |- _ => destruct H as [H|H] end; try contradiction; congruence.
  - exfalso. injection Q as -> _. cbn in I. repeat match goal with H : _ \/ _ |- _ => destruct H as [H|H] end; try contradiction; congruence.
  - injection Q as <- _. congruence.
  - exfalso. injection Q as <- _. cbn in I'. repeat match goal with H : _ \/ _ |- _ => destruct H as [H|H] end; try contradiction; congruence.
  - injection Q as Q. rewrite <- !app_assoc in Q. apply (run_read hex_char) in Q; try apply show_hex_chars; try reflexivity.
    destruct Q as [Q1 Q2]. apply show_hex_inj in Q1. cbn [app] in Q2. injection Q2 as Q2. auto.
Qed.
Lemma spelled_head : forall c x, spelled printable c x -> exists h t, x = h :: t /\ h <> 34.
Proof. intros c x H. destruct H; [exists c, []; auto | exists 92, [n] | eexists 92, _; split; [reflexivity|]]; try split; try reflexivity; discriminate. Qed.
Lemma quotes_read : forall s s' t t' r r', in_quotes printable s t -> in_quotes printable s' t' -> t ++ r = t' ++ r' -> s = s' /\ r = r'.
Proof.
  intros s s' t t' r r' [s0 l H] [s1 m K] Q. cbn [app] in Q. injection Q as Q. rewrite <- !app_assoc in Q. revert s1 m K Q.
  induction H as [|c x s2 l H HH IH]; intros s1 m K Q; destruct K as [|c' x' s3 m K KK]; cbn [List.concat app] in Q.
  - injection Q as ->. auto.
  - exfalso. destruct (spelled_head _ _ K) as (h & t2 & -> & N). cbn [app] in Q. injection Q as Q _. congruence.
  - exfalso. destruct (spelled_head _ _ H) as (h & t2 & -> & N). cbn [app] in Q. injection Q as Q _. congruence.
  - rewrite <- !app_assoc in Q. destruct (spelled_read _ _ _ _ _ _ H K Q) as [-> Q2]. destruct (IH _ _ KK Q2) as [-> ->]. auto.
Qed.

(** ** Brackets *)
Definition blank (b : bracket) : str := match b with Curly => lit " " | _ => [] end.
Definition opens (L : layout) (d : nat) (b : bracket) : str := match L with OneLine => opening b ++ blank b | Indented => opening b ++ newline (S d) end.
Definition parts (L : layout) (d : nat) : str := match L with OneLine => lit ", " | Indented => lit "," ++ newline (S d) end.
Definition closes (L : layout) (d : nat) (b : bracket) : str := match L with OneLine => blank b ++ closing b | Indented => lit "," ++ newline d ++ closing b end.
Definition more (L : layout) (d : nat) (l : list str) : str := flat_map (fun y => parts L d ++ y) l.
Lemma join_more : forall sep l x, join sep (x :: l) = x ++ flat_map (fun y => sep ++ y) l.
Proof.
  intros sep l. induction l as [|y l IH]; intro x; [cbn; rewrite app_nil_r; reflexivity|].
  rewrite join_cons by discriminate. rewrite IH. cbn [flat_map]. rewrite <- !app_assoc. reflexivity.
Qed.
Lemma entries_more : forall d (l : list str) r, lit "," ++ flat_map (fun t => newline (S d) ++ t ++ lit ",") l ++ r =
  flat_map (fun y => (lit "," ++ newline (S d)) ++ y) l ++ lit "," ++ r.
Proof.
  intros d l r. induction l as [|y l IH]; [reflexivity|]. cbn [flat_map]. rewrite <- !app_assoc. f_equal. f_equal. f_equal. exact IH.
Qed.
Lemma enclosed_cons : forall L d b x l, enclosed L d b (x :: l) = opens L d b ++ x ++ more L d l ++ closes L d b.
Proof.
  intros L d b x l. unfold enclosed, opens, closes, more, parts. fold (blank b). destruct L.
  - rewrite join_more, <- !app_assoc. reflexivity.
  - cbn [flat_map]. rewrite <- !app_assoc. do 3 f_equal. apply (entries_more d l (newline d ++ closing b)).
Qed.
Lemma closing_head : forall b, exists h t, closing b = h :: t /\ h <> 32 /\ h <> 44.
Proof. intros [| |]; eexists _, _; (split; [reflexivity|]); split; discriminate. Qed.
Lemma parts_closes : forall L d b x y, parts L d ++ x = closes L d b ++ y -> False.
Proof.
  intros L d b x y Q. destruct L; cbn [parts closes] in Q.
  - destruct b; discriminate Q.
  - rewrite <- !app_assoc in Q. apply app_inv_head in Q. apply (f_equal (@tl N)) in Q.
    change (repeat 32 (4 * S d) ++ x = repeat 32 (4 * d) ++ closing b ++ y) in Q.
    rewrite <- (four_more d) in Q. rewrite <- !app_assoc in Q.
    assert (E : lit "    " ++ repeat 32 (4 * d) = repeat 32 (4 * d) ++ lit "    ").
    { change (lit "    ") with (repeat 32 4). rewrite <- !repeat_app. f_equal. lia. }
    rewrite (app_assoc (lit "    ")), E, <- app_assoc in Q. apply app_inv_head in Q. destruct (closing_head b) as (h & t & R & H1 & H2). rewrite R in Q.
    cbn [app] in Q. injection Q as Q _. congruence.
Qed.
Lemma after_parts : forall L d x, after_word (parts L d ++ x).
Proof. intros [|] d x; reflexivity. Qed.
Lemma after_closes : forall L d b x, after_word (closes L d b ++ x).
Proof. intros [|] d [| |] x; reflexivity. Qed.
Lemma after_more : forall L d b l x, after_word (more L d l ++ closes L d b ++ x).
Proof.
  intros L d b [|y l] x; [apply after_closes|]. cbn [more flat_map]. rewrite <- !app_assoc. apply after_parts.
Qed.
Lemma after_enclosed : forall L d b l x, after_word (enclosed L d b l ++ x).
Proof. intros [|] d [| |] l x; reflexivity. Qed.

(** Entries that can be told apart one by one. *)
Fixpoint pairwise {A} (K : A -> A -> Prop) (l m : list A) : Prop :=
  match l, m with x :: l, y :: m => K x y /\ pairwise K l m | _, _ => True end.
Lemma more_read : forall {A} (text : A -> str -> Prop) (K : A -> A -> Prop),
  (forall x y t u r r', K x y -> text x t -> text y u -> after_word r -> after_word r' -> t ++ r = u ++ r' -> x = y /\ r = r') ->
  forall L d b l m ts us r r', pairwise K l m -> Forall2 text l ts -> Forall2 text m us ->
  more L d ts ++ closes L d b ++ r = more L d us ++ closes L d b ++ r' -> l = m /\ r = r'.
Proof.
  intros A text K H L d b l. induction l as [|x l IH]; intros m ts us r r' P F G Q; inversion F; subst; inversion G; subst; cbn [more flat_map app] in Q.
  - apply app_inv_head in Q. auto.
  - exfalso. rewrite <- !app_assoc in Q. symmetry in Q. exact (parts_closes _ _ _ _ _ Q).
  - exfalso. rewrite <- !app_assoc in Q. exact (parts_closes _ _ _ _ _ Q).
  - rewrite <- !app_assoc in Q. apply app_inv_head in Q. destruct P as [P1 P2].
    match goal with T1 : text x ?t, T2 : text ?y ?u |- _ => destruct (H x y t u _ _ P1 T1 T2 (after_more L d b _ r) (after_more L d b _ r') Q) as [-> Q2] end.
    destruct (IH _ _ _ r r' P2 ltac:(eassumption) ltac:(eassumption) Q2) as [-> ->]. auto.
Qed.
Lemma enclosed_read : forall {A} (text : A -> str -> Prop) (K : A -> A -> Prop),
  (forall x y t u r r', K x y -> text x t -> text y u -> after_word r -> after_word r' -> t ++ r = u ++ r' -> x = y /\ r = r') ->
  forall L d b l m ts us r r', pairwise K l m -> (l = [] <-> m = []) -> Forall2 text l ts -> Forall2 text m us ->
  enclosed L d b ts ++ r = enclosed L d b us ++ r' -> l = m /\ r = r'.
Proof.
  intros A text K H L d b l m ts us r r' P E F G Q. destruct F as [|x t l ts F1 F].
  - rewrite (proj1 E eq_refl) in *. inversion G; subst. apply app_inv_head in Q. auto.
  - destruct G as [|y u m us G1 G]; [discriminate (proj2 E eq_refl)|]. rewrite !enclosed_cons, <- !app_assoc in Q. apply app_inv_head in Q.
    destruct P as [P1 P2]. destruct (H x y t u _ _ P1 F1 G1 (after_more L d b ts r) (after_more L d b us r') Q) as [-> Q2].
    destruct (more_read text K H L d b l m ts us r r' P2 F G Q2) as [-> ->]. auto.
Qed.

(** ** Values *)
Definition legible (v : sv) : Prop := leaves (fun x => u32 x /\ f32_is_nan x = false) (fun x => u64 x /\ f64_is_nan x = false)
  (fun s => forallb word_char s = true) (fun _ => True) v.
Lemma out_head : forall L d s v t, worded s = true -> conforms s v -> out L d v t -> exists h r, t = h :: r /\ h <> 93.
Proof.
  assert (W : forall w r, a_word w -> exists h t, w ++ r = h :: t /\ h <> 93).
  { intros [|h t] r [N A]; [congruence|]. exists h, (t ++ r). split; [reflexivity|]. intros ->. discriminate A. }
  assert (W0 : forall w, a_word w -> exists h t, w = h :: t /\ h <> 93).
  { intros w H. rewrite <- (app_nil_r w). apply W, H. }
  intros L d s v t Wd C O. destruct O; inversion C; subst; cbn [worded] in Wd; try discriminate Wd;
    try match goal with H : nth_error _ _ = Some _ |- _ => destruct (variant_word _ _ _ _ Wd H) as [V _] end.
  - destruct b; eexists _, _; (split; [reflexivity | discriminate]).
  - apply W0, number_word.
  - apply W0, (f32_word _ _ _ _ T).
  - apply W0, (f64_word _ _ _ _ T).
  - destruct H. eexists _, _. split; [reflexivity | discriminate].
  - eexists _, _. split; [reflexivity | discriminate].
  - eexists _, _. split; [reflexivity | discriminate].
  - eexists _, _. split; [reflexivity | discriminate].
  - destruct L; eexists _, _; (split; [reflexivity | discriminate]).
  - destruct L; eexists _, _; (split; [reflexivity | discriminate]).
  - apply andb_prop in Wd. apply W, wordy_word, Wd.
  - apply W0, V.
  - apply W, V.
  - apply W, V.
  - apply W, V.
  - apply W, V.
Qed.
Definition readable (n : nat) (x y : sv) : Prop :=
  (vsize x < n)%nat /\ exists s, clear s = true /\ worded s = true /\ conforms s x /\ conforms s y /\ legible x /\ legible y.
Definition read_n (n : nat) : Prop := forall L d a b ta tb ra rb, readable n a b -> out L d a ta -> out L d b tb -> after_word ra -> after_word rb ->
  ta ++ ra = tb ++ rb -> a = b /\ ra = rb.
Lemma values_read : forall n, read_n n -> forall L d b l m ts us r r', pairwise (readable n) l m -> (l = [] <-> m = []) ->
  Forall2 (out L (S d)) l ts -> Forall2 (out L (S d)) m us -> enclosed L d b ts ++ r = enclosed L d b us ++ r' -> l = m /\ r = r'.
Proof.
  intros n H L d b. apply (enclosed_read (out L (S d)) (readable n)). intros x y t u r r' K X Y R R' Q. exact (H L (S d) x y t u r r' K X Y R R' Q).
Qed.
Definition field_text (L : layout) (d : nat) (f : str * sv) (t : str) : Prop := exists u, out L d (snd f) u /\ t = fst f ++ lit ": " ++ u.
Lemma field_texts : forall L d (l : list (str * sv)) ts, Forall2 (fun f t => out L d (snd f) t) l ts ->
  Forall2 (field_text L d) l (map (fun p => fst (fst p) ++ lit ": " ++ snd p) (combine l ts)).
Proof. intros L d l ts H. induction H as [|f t l ts H K IH]; cbn [combine map]; constructor; [exists t; auto | exact IH]. Qed.
Lemma fields_read : forall n, read_n n -> forall L d (l m : list (str * sv)) ts us r r',
  pairwise (fun f g => fst f = fst g /\ readable n (snd f) (snd g)) l m -> (l = [] <-> m = []) ->
  Forall2 (fun f t => out L (S d) (snd f) t) l ts -> Forall2 (fun f t => out L (S d) (snd f) t) m us ->
  enclosed L d Curly (map (fun p => fst (fst p) ++ lit ": " ++ snd p) (combine l ts)) ++ r =
  enclosed L d Curly (map (fun p => fst (fst p) ++ lit ": " ++ snd p) (combine m us)) ++ r' -> l = m /\ r = r'.
Proof.
  intros n H L d l m ts us r r' P E F G Q.
  refine (enclosed_read (field_text L (S d)) (fun f g => fst f = fst g /\ readable n (snd f) (snd g)) _ L d Curly l m _ _ r r' P E (field_texts _ _ _ _ F) (field_texts _ _ _ _ G) Q).
  intros [k x] [k' y] t u s s' [K1 K2] (t' & X & ->) (u' & Y & ->) A A' R. cbn [fst snd] in *. subst k'. rewrite <- !app_assoc in R.
  do 2 apply app_inv_head in R. destruct (H L (S d) x y t' u' s s' K2 X Y A A' R) as [-> ->]. auto.
Qed.
Lemma seq_pairs : forall n s l m, clear s = true -> worded s = true -> (list_sum (map vsize l) < n)%nat -> Forall (conforms s) l -> Forall (conforms s) m ->
  Forall legible l -> Forall legible m -> pairwise (readable n) l m.
Proof.
  intros n s l. induction l as [|x l IH]; intros [|y m] C W Sz A B X Y; cbn [pairwise]; auto. cbn in Sz.
  inversion A; subst; inversion B; subst; inversion X; subst; inversion Y; subst. split; [split; [lia|]; exists s; auto 10|].
  apply IH; auto. unfold list_sum. lia.
Qed.
Lemma tuple_pairs : forall n ss l m, forallb clear ss = true -> forallb worded ss = true -> (list_sum (map vsize l) < n)%nat -> Forall2 conforms ss l -> Forall2 conforms ss m ->
  Forall legible l -> Forall legible m -> pairwise (readable n) l m /\ (l = [] <-> m = []).
Proof.
  intros n ss l m C W Sz A. revert m. induction A as [|s x ss l A1 A IH]; intros m B X Y; inversion B; subst; cbn [pairwise]; [tauto|]. cbn in Sz, C, W.
  apply andb_prop in C. apply andb_prop in W. inversion X; subst; inversion Y; subst. split; [|split; discriminate]. split; [split; [lia|]; exists s; tauto|].
  apply IH; try tauto. unfold list_sum. lia.
Qed.
Lemma field_pairs : forall n (ss : list (string * schema)) l m, forallb (fun f => match f with (_, s) => clear s end) ss = true ->
  forallb (fun f => match f with (_, s) => worded s end) ss = true ->
  (list_sum (map (fun f : str * sv => match f with (_, v) => vsize v end) l) < n)%nat -> fields_conform ss l -> fields_conform ss m ->
  Forall (fun f => True /\ legible (snd f)) l -> Forall (fun f => True /\ legible (snd f)) m ->
  pairwise (fun f g => fst f = fst g /\ readable n (snd f) (snd g)) l m /\ (l = [] <-> m = []).
Proof.
  intros n ss l m C W Sz A. revert m. induction A as [|[k s] [k1 x] ss l [K1 A1] A IH]; intros m B X Y; inversion B as [|? [k2 y] ? m' [K2 B1] B']; subst; cbn [pairwise]; [tauto|].
  cbn in Sz, C, W. apply andb_prop in C. apply andb_prop in W. inversion X; subst; inversion Y; subst. cbn [fst snd] in *. subst. split; [|split; discriminate].
  split; [split; [reflexivity|]; split; [lia|]; exists s; tauto|]. apply IH; try tauto. unfold list_sum. lia.
Qed.
Lemma new_inv : forall L d e i n v t, out L d (SvNewtypeVariant e i n v) t ->
  exists u, t = n ++ enclosed L d Round [u] /\ (n = lit "Ip" /\ v = SvStr u \/ n <> lit "Ip" /\ out L (S d) v u).
Proof. intros L d e i n v t H. inversion H; subst; eexists; split; try reflexivity; auto. Qed.
Ltac unlay O := lazymatch type of O with
  | laid_out _ _ _ _ _ (SvNewtypeVariant _ _ _ _) _ => let u := fresh "u" in apply new_inv in O; destruct O as (u & -> & O)
  | _ => inversion O; subst
  end.
Lemma unit_read : forall w w' r r', a_word w -> a_word w' -> after_word r -> after_word r' -> w ++ r = w' ++ r' -> w = w' /\ r = r'.
Proof. intros w w' r r' [_ H] [_ H'] A A' Q. exact (run_read word_char w w' r r' H H' A A' Q). Qed.
(** The names of the variants. *)
Ltac names Q Wd D := match goal with
  | H1 : nth_error ?vs ?i = Some (?v, _), H2 : nth_error ?vs ?j = Some (?w, _) |- _ =>
      let V1 := fresh "V" in let V2 := fresh "V" in let W1 := fresh "W" in let W2 := fresh "W" in let N := fresh "N" in let S := fresh "Sh" in
      destruct (variant_word vs i v _ Wd H1) as [V1 W1]; destruct (variant_word vs j w _ Wd H2) as [V2 W2];
      rewrite <- ?app_assoc in Q;
      apply (unit_read (of_string v) (of_string w)) in Q;
        [ destruct Q as [N Q]; destruct (same_variant vs i j v w _ _ D H1 H2 N) as (<- & <- & S); try discriminate S
        | exact V1 | exact V2 | first [assumption | apply after_enclosed] | first [assumption | apply after_enclosed] ]
  end.
Lemma seq_first : forall s x l, conforms (ScSeq s) (SvSeq (x :: l)) -> conforms s x.
Proof. intros s x l H. inversion H; subst. match goal with K : Forall _ _ |- _ => exact (Forall_inv K) | K : forall v, In v _ -> _ |- _ => apply K; left; reflexivity end. Qed.
Lemma read_all : forall n, read_n n.
Proof.
  induction n as [|n IH]; intros L d a b ta tb ra rb (Sz & s & Cl & Wd & Ca & Cb & La & Lb) Oa Ob Ra Rb Q; [lia|].
  assert (V := values_read n IH L d). assert (F := fields_read n IH L d).
  unfold legible in La, Lb.
  inversion Ca; subst; inversion Cb; subst; cbn [vsize] in Sz; cbn [clear] in Cl; cbn [worded] in Wd; try discriminate Wd;
    unlay Oa; unlay Ob; inversion La; subst; inversion Lb; subst;
    try match type of Cl with distinct (map fst _) && _ = true => apply andb_prop in Cl; destruct Cl as [D Cl] end;
    try names Q Wd D.
  - apply unit_read in Q; try assumption; [|destruct b0; split; (discriminate || reflexivity)|destruct b1; split; (discriminate || reflexivity)].
    destruct Q as [Q ->]. split; [|reflexivity]. destruct b0, b1; congruence.
  - apply unit_read in Q; try assumption; try apply number_word. destruct Q as [Q ->]. apply show_N_inj in Q. subst. auto.
  - apply unit_read in Q; try assumption; try apply (f32_word _ _ _ _ T). destruct Q as [Q ->]. apply (f32_apart _ _ _ _ T) in Q; try tauto. subst. auto.
  - apply unit_read in Q; try assumption; try apply (f64_word _ _ _ _ T). destruct Q as [Q ->]. apply (f64_apart _ _ _ _ T) in Q; try tauto. subst. auto.
  - match goal with X : in_quotes _ _ _, Y : in_quotes _ _ _ |- _ => destruct (quotes_read _ _ _ _ _ _ X Y Q) as [-> ->] end. auto.
  - apply app_inv_head in Q. auto.
  - exfalso. discriminate Q.
  - exfalso. discriminate Q.
  - rewrite <- !app_assoc in Q. apply app_inv_head in Q.
    match goal with X : out L (S d) ?x ?t, Y : out L (S d) ?y ?u, X' : conforms ?s0 ?x, Y' : conforms ?s0 ?y |- _ =>
      destruct (V Round [x] [y] [t] [u] ra rb) as [R ->];
      [ cbn [pairwise]; split; [|exact I]; split; [lia|]; exists s0; destruct s0; try discriminate Cl; auto 10
      | split; discriminate | constructor; [exact X | constructor] | constructor; [exact Y | constructor] | exact Q | injection R as ->; auto ] end.
  - apply app_inv_head in Q. auto.
  - exfalso. match goal with Z : Forall2 _ ?l ?ts, N : ?l <> [] |- _ => destruct Z as [|x t l ts X X2]; [congruence|] end.
    rewrite enclosed_cons in Q. match goal with C : conforms _ (SvSeq (_ :: _)) |- _ => apply seq_first in C; destruct (out_head _ _ _ _ _ Wd C X) as (h & r & -> & Nh) end.
    destruct L; cbn in Q; congruence.
  - exfalso. match goal with Z : Forall2 _ ?l ?ts, N : ?l <> [] |- _ => destruct Z as [|x t l ts X X2]; [congruence|] end.
    rewrite enclosed_cons in Q. match goal with C : conforms _ (SvSeq (_ :: _)) |- _ => apply seq_first in C; destruct (out_head _ _ _ _ _ Wd C X) as (h & r & -> & Nh) end.
    destruct L; cbn in Q; congruence.
  - match goal with X : Forall2 _ l ?ts, Y : Forall2 _ l0 ?us |- _ => destruct (V Square l l0 ts us ra rb) as [-> ->] end; auto.
    + eapply seq_pairs; eauto. lia.
    + split; congruence.
  - match goal with X : Forall2 conforms ?ss l, Y : Forall2 conforms ?ss l0 |- _ => destruct (tuple_pairs n ss l l0 Cl Wd ltac:(lia) X Y) as [P1 P2]; try assumption end.
    match goal with X : Forall2 (out _ _) l ?ts, Y : Forall2 (out _ _) l0 ?us |- _ => destruct (V Round l l0 ts us ra rb) as [-> ->] end; auto.
  - rewrite <- !app_assoc in Q. apply app_inv_head in Q. apply andb_prop in Wd.
    match goal with X : Forall2 _ ss l, Y : Forall2 _ ss l0 |- _ => destruct (field_pairs n ss l l0 Cl (proj2 Wd) ltac:(lia) X Y) as [P1 P2]; try assumption end.
    match goal with X : Forall2 _ l ?ts, Y : Forall2 _ l0 ?us |- _ => destruct (F l l0 ts us ra rb P1 P2 X Y Q) as [-> ->] end. auto.
  - auto.
  - injection Sh as <-. match goal with X1 : nth_error vs i = Some (v, VNew ?s), X2 : conforms ?s ?x, X3 : conforms ?s ?y, X4 : leaves _ _ _ _ ?x, X5 : leaves _ _ _ _ ?y |- _ =>
      assert (P : readable n x y) by (split; [lia|]; exists s; repeat split; auto; [exact (new_clear _ _ _ _ Cl X1) | apply andb_prop in W; apply W]) end.
    destruct Oa as [[Na ->]|[Na Oa]], Ob as [[Nb ->]|[Nb Ob]]; try congruence.
    + match goal with A1 : of_string v = _ -> exists _, SvStr u = _ /\ _, A2 : of_string v = _ -> exists _, SvStr u0 = _ /\ _ |- _ =>
        destruct (A1 Na) as (z1 & Z1 & Z2), (A2 Na) as (z2 & Z3 & Z4) end. injection Z1 as <-. injection Z3 as <-.
      rewrite !enclosed_cons, <- !app_assoc in Q. apply app_inv_head in Q. apply (run_read word_char) in Q; auto; try apply after_more.
      destruct Q as [-> Q]. do 2 apply app_inv_head in Q. auto.
    + match type of Oa with laid_out _ _ _ _ _ ?x ?t => match type of Ob with laid_out _ _ _ _ _ ?y ?u =>
        destruct (V Round [x] [y] [t] [u] ra rb) as [R ->];
        [ cbn [pairwise]; auto | split; discriminate | auto | auto | exact Q | injection R as ->; auto ] end end.
  - injection Sh as <-. match goal with X1 : nth_error vs i = Some (v, VTuple ?ss), X : Forall2 conforms ?ss l, Y : Forall2 conforms ?ss l0 |- _ =>
      destruct (tuple_pairs n ss l l0 (tuple_clear _ _ _ _ Cl X1) (proj2 (andb_prop _ _ W)) ltac:(lia) X Y) as [P1 P2]; try assumption end.
    match goal with X : Forall2 (out _ _) l ?ts, Y : Forall2 (out _ _) l0 ?us |- _ => destruct (V Round l l0 ts us ra rb) as [-> ->] end; auto.
  - injection Sh as <-. match goal with X1 : nth_error vs i = Some (v, VStruct ?ss), X : Forall2 _ ?ss l, Y : Forall2 _ ?ss l0 |- _ =>
      destruct (field_pairs n ss l l0 (proj2 (struct_clear _ _ _ _ Cl X1)) (proj2 (andb_prop _ _ W)) ltac:(lia) X Y) as [P1 P2]; try assumption end.
    match goal with X : Forall2 _ l ?ts, Y : Forall2 _ l0 ?us |- _ => destruct (F l l0 ts us ra rb P1 P2 X Y Q) as [-> ->] end. auto.
Qed.
Lemma text_read : forall s L d a b t, clear s = true -> worded s = true -> conforms s a -> conforms s b -> legible a -> legible b ->
  out L d a t -> out L d b t -> a = b.
Proof.
  intros s L d a b t C W A B X Y Oa Ob. apply (read_all (S (vsize a)) L d a b t t [] []); auto; try exact I.
  split; [lia|]. exists s. auto 10.
Qed.
End Text.

(** * Lemmas for C75: frame rates and image attributes *)
From Coq Require Import List NArith ZArith Bool Ascii String Lia.
From Coq Require Import ZifyBool ZifyNat ZifyN.
From Verif Require Import Str Num Net Types Ext Show Address AttrParse Media Session StrLemmas NumLemmas.
From Verif Require Import SpecApi SpecDoc SpecVal SpecPrint SpecGrammar SpecRfc SpecFloat SpecRfc2.
From Verif Require Import PPanic PVal PVal7 PVal8 PVal9 PPrint3 PPrint4 PPrint7 PPrint9 PRfc PWhy PSettle PRfc10 PFloat PFloat2 PFloat3 PFloat4 PRfc11.
From Verif Require PRfc9.
Import ListNotations.
Open Scope N_scope.
Open Scope list_scope.

(** ** Tokens *)
Definition calm (t : str) : Prop := Forall (fun c => c <> 32 /\ c <> 44 /\ c <> 91 /\ c <> 93) t.
Definition item (u : str) : Prop :=
  calm u \/ exists p a l, u = p ++ 91 :: a ++ leads 44 l ++ [93] /\ calm p /\ calm a /\ Forall calm l.
Definition one_token (sep : N) (u : str) : Prop := exists g, fields sep u g /\ closed_group g.

Lemma fields_app : forall sep s l t m, fields sep s l -> fields sep t m -> fields sep (s ++ sep :: t) (l ++ m).
Proof.
  intros sep s l t m H K. induction H as [s Nn|u s l Nn H IH]; cbn [app]; [apply fields_more; assumption|].
  rewrite <- app_assoc. cbn [app]. apply fields_more; assumption.
Qed.
Lemma tokens_of : forall sep us u, Forall (one_token sep) (u :: us) -> bracket_tokens sep (u ++ leads sep us) (u :: us).
Proof.
  intros sep us u H.
  assert (K : exists groups, fields sep (u ++ leads sep us) (List.concat groups) /\ Forall closed_group groups /\ map (join [sep]) groups = u :: us).
  { revert u H. induction us as [|u' us IH]; intros u H; inversion H as [|? ? [g [G C]] T]; subst.
    - exists [g]. cbn [leads flat_map List.concat map]. rewrite !app_nil_r. split; [exact G|]. split; [auto|]. f_equal. symmetry. exact (proj1 (fields_join_inv _ _ _ G)).
    - destruct (IH u' T) as (gs & A & B & M). exists (g :: gs). split; [|split; [constructor; assumption|]].
      + cbn [List.concat]. change (leads sep (u' :: us)) with (sep :: u' ++ leads sep us). apply fields_app; assumption.
      + cbn [map]. rewrite M. f_equal. symmetry. exact (proj1 (fields_join_inv _ _ _ G)). }
  destruct K as (gs & A & B & M). exists gs, []. rewrite app_nil_r. split; [exact A|]. split; [exact B|]. split; [apply open_nil | symmetry; exact M].
Qed.
Lemma single : forall sep u, ~ In sep u -> weight u = 0%Z -> one_token sep u.
Proof.
  intros sep u Nn W. exists [u]. split; [apply fields_last, Nn|]. exists [], u. split; [reflexivity|]. split; [apply open_nil|]. rewrite balance_one. exact W.
Qed.
Lemma calm_no : forall t c, calm t -> c = 32 \/ c = 44 \/ c = 91 \/ c = 93 -> ~ In c t.
Proof. intros t c F H I. unfold calm in F. rewrite Forall_forall in F. specialize (F _ I). lia. Qed.
Lemma calm_weight : forall t, calm t -> weight t = 0%Z.
Proof.
  intros t F. unfold weight. rewrite (proj2 (contains_not_In 91 t)) by (apply calm_no; auto). rewrite (proj2 (contains_not_In 93 t)) by (apply calm_no; auto). reflexivity.
Qed.
Lemma both_weight : forall t, In 91 t -> In 93 t -> weight t = 0%Z.
Proof. intros t A B. unfold weight. rewrite (proj2 (contains_In 91 t) A), (proj2 (contains_In 93 t) B). reflexivity. Qed.
Lemma no_in_leads : forall c s l, c <> s -> Forall (fun t => ~ In c t) l -> ~ In c (leads s l).
Proof.
  intros c s l D F I. unfold leads in I. apply in_flat_map in I. destruct I as (t & T & I). rewrite Forall_forall in F. destruct I as [I|I]; [congruence|]. exact (F t T I).
Qed.
Lemma calm_all : forall l c, Forall calm l -> c = 32 \/ c = 44 \/ c = 91 \/ c = 93 -> Forall (fun t => ~ In c t) l.
Proof. intros l c F H. eapply Forall_impl; [|exact F]. intros t T. apply calm_no; assumption. Qed.
Lemma item_no32 : forall u, item u -> ~ In 32 u.
Proof.
  intros u [H|(p & a & l & -> & P & A & L)]; [apply calm_no; auto|]. intro I. apply in_app_iff in I. destruct I as [I|[I|I]].
  - exact (calm_no p 32 P ltac:(auto) I).
  - discriminate.
  - apply in_app_iff in I. destruct I as [I|I]; [exact (calm_no a 32 A ltac:(auto) I)|]. apply in_app_iff in I. destruct I as [I|[I|[]]]; [|discriminate].
    exact (no_in_leads 32 44 l ltac:(lia) (calm_all l 32 L ltac:(auto)) I).
Qed.
Lemma open_from : forall t l, weight t = 1%Z -> Forall calm l -> open_group (t :: l) /\ balance (t :: l) = 1%Z.
Proof.
  intros t l W. induction l as [|x l IH] using rev_ind; intro F.
  - split; [|rewrite balance_one; exact W]. change [t] with ([] ++ [t]). apply open_snoc; [apply open_nil|]. cbn [app]. rewrite balance_one, W. discriminate.
  - apply Forall_app in F. destruct F as [F X]. inversion X; subst. destruct (IH F) as [O B].
    assert (B2 : balance (t :: l ++ [x]) = 1%Z). { change (t :: l ++ [x]) with ((t :: l) ++ [x]). rewrite balance_app, B, balance_one, calm_weight by assumption. reflexivity. }
    split; [|exact B2]. change (t :: l ++ [x]) with ((t :: l) ++ [x]). apply open_snoc; [exact O|]. cbn [app]. rewrite B2. discriminate.
Qed.
Lemma item_token : forall u, item u -> one_token 44 u.
Proof.
  intros u [H|(p & a & l & -> & P & A & L)]; [apply single; [apply calm_no; auto | apply calm_weight, H]|].
  destruct l as [|z l _] using rev_ind.
  - cbn [leads flat_map app]. apply single.
    + intro I. apply in_app_iff in I. destruct I as [I|[I|I]]; [exact (calm_no p 44 P ltac:(auto) I) | discriminate|].
      apply in_app_iff in I. destruct I as [I|[I|[]]]; [exact (calm_no a 44 A ltac:(auto) I) | discriminate].
    + apply both_weight; apply in_app_iff; right; [left; reflexivity|]. right. apply in_app_iff. right. left. reflexivity.
  - apply Forall_app in L. destruct L as [L Z]. inversion Z as [|? ? Zc _]; subst.
    exists ((p ++ 91 :: a) :: l ++ [z ++ [93]]). split.
    + replace (p ++ 91 :: a ++ leads 44 (l ++ [z]) ++ [93]) with ((p ++ 91 :: a) ++ leads 44 (l ++ [z ++ [93]])).
      * apply fields_leads.
        -- intro I. apply in_app_iff in I. destruct I as [I|[I|I]]; [exact (calm_no p 44 P ltac:(auto) I) | discriminate | exact (calm_no a 44 A ltac:(auto) I)].
        -- apply Forall_app. split; [apply calm_all; auto|]. constructor; [|constructor]. intro I. apply in_app_iff in I.
           destruct I as [I|[I|[]]]; [exact (calm_no z 44 Zc ltac:(auto) I) | discriminate].
      * rewrite !leads_app. cbn [leads flat_map]. rewrite ?app_nil_r. repeat (rewrite <- app_assoc; cbn [app]). reflexivity.
    + assert (W : weight (p ++ 91 :: a) = 1%Z).
      { unfold weight. rewrite (proj2 (contains_In 91 _)) by (apply in_app_iff; right; left; reflexivity).
        rewrite (proj2 (contains_not_In 93 _)); [reflexivity|]. intro I. apply in_app_iff in I.
        destruct I as [I|[I|I]]; [exact (calm_no p 93 P ltac:(auto) I) | discriminate | exact (calm_no a 93 A ltac:(auto) I)]. }
      assert (W2 : weight (z ++ [93]) = (-1)%Z).
      { unfold weight. rewrite (proj2 (contains_In 93 _)) by (apply in_app_iff; right; left; reflexivity).
        rewrite (proj2 (contains_not_In 91 _)); [reflexivity|]. intro I. apply in_app_iff in I.
        destruct I as [I|[I|[]]]; [exact (calm_no z 91 Zc ltac:(auto) I) | discriminate]. }
      destruct (open_from _ l W L) as [O B]. exists ((p ++ 91 :: a) :: l), (z ++ [93]). split; [reflexivity|]. split; [exact O|].
      change ((p ++ 91 :: a) :: l ++ [z ++ [93]]) with (((p ++ 91 :: a) :: l) ++ [z ++ [93]]). rewrite balance_app, B, balance_one, W2. reflexivity.
Qed.
Lemma dec_calm : forall t, Forall dec t -> calm t.
Proof. intro t. apply Forall_impl. unfold dec. intros c C. lia. Qed.
Lemma calm_app : forall a b, calm a -> calm b -> calm (a ++ b).
Proof. intros a b A B. apply Forall_app. auto. Qed.
Ltac calms := unfold calm; repeat (first [apply Forall_nil | apply Forall_cons; [lia|]]).

(** ** Numbers *)
Lemma g_posdec : forall t, gen posdec t -> exists c, t = [c] /\ 49 <= c <= 57.
Proof. intros t H. apply g_inv_chr in H. exact H. Qed.
Lemma g_upto : forall least most t, gen (digits least most) t -> Forall dec t /\ (least <= List.length t <= most)%nat.
Proof. intros least most t H. apply g_inv_such in H. destruct H as [H K]. split; [apply g_inv_many_chr, H|exact K]. Qed.
Definition num (t : str) : Prop := numeral u32_max t (dec_value t) /\ show_N (dec_value t) = t.
Lemma g_xyvalue : forall t, gen xyvalue t -> Forall dec t /\ num t.
Proof.
  intros t H. apply g_inv_cat in H. destruct H as (x & y & -> & H & K). apply g_posdec in H. destruct H as (c & -> & C). apply g_upto in K. destruct K as [F L]. cbn [app].
  assert (F' : Forall is_digit (c :: y)) by (constructor; [unfold is_digit; lia | exact F]). split; [exact F'|].
  split; [|symmetry; apply decimal_iff; split; [discriminate|]; split; [exact F'|]; split; [reflexivity|]; intros r Q; injection Q as Q _; lia].
  apply digits_numeral; [discriminate | exact F'|]. pose proof (dec_value_bound _ F') as B. cbn [app List.length] in B.
  assert (10 ^ N.of_nat (S (List.length y)) <= 10 ^ 6) by (apply N.pow_le_mono_r; lia). change (10 ^ 6) with 1000000 in *. change u32_max with 4294967295. lia.
Qed.
Lemma dec_no : forall c t, Forall dec t -> ~ dec c -> ~ In c t.
Proof. intros c t F D I. rewrite Forall_forall in F. exact (D (F _ I)). Qed.
Ltac nodec := let D := fresh in intro D; unfold dec in D; lia.
Lemma dec_all : forall c l, Forall (Forall dec) l -> ~ dec c -> Forall (fun t => ~ In c t) l.
Proof. intros c l F D. eapply Forall_impl; [|exact F]. intros t T. apply dec_no; assumption. Qed.
Lemma xy_calm : forall c x l, c <> 32 /\ c <> 44 /\ c <> 91 /\ c <> 93 -> Forall dec x -> Forall (Forall dec) l -> calm (x ++ leads c l).
Proof.
  intros c x l C X L. apply calm_app; [apply dec_calm, X|]. induction L as [|t l T L IH]; [constructor|].
  change (leads c (t :: l)) with (c :: t ++ leads c l). constructor; [exact C|]. apply calm_app; [apply dec_calm, T | exact IH].
Qed.
Lemma g_colon : forall t, gen (opt (Cat xyvalue (Lit ":"))) t ->
  t = [] \/ exists a, t = a ++ [58] /\ Forall dec a /\ num a.
Proof.
  intros t H. apply g_inv_opt in H. destruct H as [->|H]; [left; reflexivity|]. right. apply g_inv_cat in H. destruct H as (a & b & -> & K & K2).
  apply g_xyvalue in K. apply g_inv_lit in K2. subst b. exists a. split; [reflexivity | exact K].
Qed.
Lemma g_xylist : forall t, gen (many1 (Cat (Lit ",") xyvalue)) t -> exists l, l <> [] /\ t = leads 44 l /\ Forall (Forall dec) l /\ Forall num l.
Proof.
  intros t H. apply (g_inv_leads1 44) in H; [|reflexivity]. destruct H as (l & Ne & F & ->). exists l. split; [exact Ne|]. split; [reflexivity|]. clear Ne.
  induction F as [|x l X F [IH1 IH2]]; [split; constructor|]. apply g_xyvalue in X. destruct X. split; constructor; assumption.
Qed.
Definition xy_good (r : xy_range) : Prop := gen xyrange (show_xy_range r).
Lemma num_list : forall l, Forall num l -> Forall2 (numeral u32_max) l (map dec_value l) /\ map show_N (map dec_value l) = l.
Proof.
  intros l F. induction F as [|x l [X1 X2] F [IH1 IH2]]; [split; constructor|]. split; [constructor; assumption|]. cbn [map]. congruence.
Qed.
Lemma g_xyrange : forall p t, calm p -> gen xyrange t -> item (p ++ t) /\ exists r, xy_value t r /\ xy_good r.
Proof.
  intros p t P H. assert (H0 := H). apply g_inv_or in H. destruct H as [H|H].
  - apply g_xyvalue in H. destruct H as [F V]. split; [left; apply calm_app; [exact P | apply dec_calm, F]|]. exists (XyDiscrete [dec_value t]). split.
    + left. eexists. split; [apply V | reflexivity].
    + unfold xy_good. cbn [show_xy_range show_discrete]. rewrite (proj2 V). exact H0.
  - apply g_inv_or in H. destruct H as [H|H].
    + assert (Q : exists a m b, t = [91] ++ (a ++ leads 58 (m ++ [b])) ++ [93] /\ Forall (Forall dec) (a :: m ++ [b]) /\ num a /\ num b /\
        (m = [] \/ exists s, m = [s] /\ num s)).
      { pieces H. repeat match goal with G : gen xyvalue _ |- _ => apply g_xyvalue in G; destruct G end.
        match goal with G : gen (opt _) ?o, A : Forall dec ?a, B : Forall dec ?b |- context [[of_string "["; ?a; of_string ":"; ?o; ?b; of_string "]"]] =>
          apply g_colon in G; destruct G as [->|(s & -> & S1 & S2)]; [exists a, [], b | exists a, [s], b] end.
        - split; [cbn [List.concat app leads flat_map]; rewrite ?app_nil_r, <- ?app_assoc; reflexivity|]. split; [repeat constructor; assumption|]. auto.
        - split; [cbn [List.concat app leads flat_map]; repeat (rewrite ?app_nil_r, <- ?app_assoc; cbn [app]); reflexivity|]. split; [repeat constructor; assumption|]. split; [assumption|]. split; [assumption|]. right. eauto. }
      destruct Q as (a & m & b & -> & F & A & B & M). inversion F as [|? ? Fa Fm]; subst. split.
      * right. exists p, (a ++ leads 58 (m ++ [b])), []. split; [reflexivity|]. split; [exact P|]. split; [apply xy_calm; [lia | assumption..]|constructor].
      * assert (G : fields 58 (a ++ leads 58 (m ++ [b])) (a :: m ++ [b])) by (apply fields_leads; [apply dec_no; [assumption|nodec] | apply dec_all; [assumption|nodec]]).
        destruct M as [->|(s & -> & Sn)]; cbn [app] in G.
        -- exists (XyRange (dec_value a) (dec_value b) None). split.
           ++ right. eexists. split; [reflexivity|]. right. left. exists a, b, (dec_value a), (dec_value b). destruct A, B. auto.
           ++ unfold xy_good. cbn [show_xy_range show_opt]. rewrite (proj2 A), (proj2 B). cbn [app leads flat_map] in H0.
              repeat (rewrite ?app_nil_r, <- ?app_assoc in H0; cbn [app] in H0). cbn [app]. exact H0.
        -- exists (XyRange (dec_value a) (dec_value b) (Some (dec_value s))). split.
           ++ right. eexists. split; [reflexivity|]. left. exists a, s, b, (dec_value a), (dec_value b), (dec_value s). destruct A, B, Sn. auto.
           ++ unfold xy_good. cbn [show_xy_range show_opt]. rewrite (proj2 A), (proj2 B), (proj2 Sn). cbn [app leads flat_map] in H0.
              repeat (rewrite ?app_nil_r, <- ?app_assoc in H0; cbn [app] in H0). repeat (rewrite <- ?app_assoc; cbn [app]). exact H0.
    + assert (Q : exists a l, t = [91] ++ (a ++ leads 44 l) ++ [93] /\ l <> [] /\ Forall (Forall dec) (a :: l) /\ Forall num (a :: l)).
      { pieces H. repeat match goal with G : gen xyvalue _ |- _ => apply g_xyvalue in G; destruct G | G : gen (many1 _) _ |- _ => apply g_xylist in G; destruct G as (l & Ne & -> & Fl & Vl) end.
        match goal with A : Forall dec ?a |- context [[of_string "["; ?a; _; _]] => exists a, l end.
        split; [cbn [List.concat app]; rewrite ?app_nil_r, <- ?app_assoc; reflexivity|]. split; [exact Ne|]. split; [constructor; assumption|]. constructor; assumption. }
      destruct Q as (a & l & -> & Ne & F & V). inversion F as [|? ? Fa Fl]; subst. split.
      * right. exists p, a, l. split; [rewrite <- ?app_assoc; reflexivity|]. split; [exact P|]. split; [apply dec_calm, Fa|]. eapply Forall_impl; [|exact Fl]. apply dec_calm.
      * apply num_list in V. destruct V as [V Sh]. exists (XyDiscrete (map dec_value (a :: l))). split.
        2:{ unfold xy_good. cbn [show_xy_range]. unfold show_discrete. destruct l as [|b l]; [congruence|]. cbn [map] in Sh |- *. injection Sh as -> -> ->.
            change (join [c_comma] (a :: b :: l)) with (join [44] (a :: b :: l)). rewrite (join_leads 44 a (b :: l)). exact H0. }
        right. eexists. split; [reflexivity|]. right. right. exists (a :: l), (map dec_value (a :: l)).
        split; [apply fields_leads; [apply dec_no; [assumption|nodec] | apply dec_all; [assumption|nodec]]|]. split; [exact V|]. split; [|reflexivity].
        destruct l; [congruence|]. cbn. lia.
Qed.

(** ** Aspect ratios *)
Definition sp_text (t : str) : Prop := exists c f, t = c :: 46 :: f /\ dec c /\ Forall dec f /\ (List.length f <= 4)%nat.
Lemma g_spvalue : forall t, gen spvalue t -> sp_text t.
Proof.
  intros t H. apply g_inv_or in H. destruct H as [H|H]; pieces H;
    repeat match goal with G : gen posdec _ |- _ => apply g_posdec in G; let c := fresh "c" in destruct G as (c & -> & G) | G : gen (digits _ _) _ |- _ => apply g_upto in G; destruct G as [? ?] end.
  - exists 48, (c :: x1). split; [cbn [List.concat app]; rewrite ?app_nil_r; reflexivity|]. split; [unfold dec; lia|]. split; [constructor; [unfold dec; lia | assumption]|]. cbn. lia.
  - exists c, x1. split; [cbn [List.concat app]; rewrite ?app_nil_r; reflexivity|]. split; [unfold dec; lia|]. split; [assumption|]. lia.
Qed.
Definition big (t : str) : Prop := (exists n, worth t n) /\ forall n, worth t n -> 1000 <= n.
Lemma sp_some : forall c f, dec c -> Forall dec f -> (List.length f <= 4)%nat -> exists n, worth (c :: 46 :: f) n.
Proof.
  intros c f C F L. exists (dec_value (c :: f) * 10 ^ (4 - N.of_nat (List.length f))), [c], f. split; [reflexivity|]. split; [auto|]. split; [auto|]. split; [exact L|].
  rewrite <- N.mul_assoc, <- N.pow_add_r. do 2 f_equal. lia.
Qed.
Lemma big_text : forall c f, dec c -> Forall dec f -> (List.length f <= 4)%nat -> 10 ^ N.of_nat (List.length f) <= 10 * dec_value (c :: f) -> big (c :: 46 :: f).
Proof.
  intros c f C F L B. split; [apply sp_some; assumption|]. intros n (i & g & Q & I & G & Lg & W).
  destruct (cut_once 46 (c :: 46 :: f) [c] f i g) as [<- <-].
  - split; [reflexivity|]. intros [K|[]]. unfold dec in C. lia.
  - split; [exact Q | apply dec_no; [exact I|nodec]].
  - change ([c] ++ f) with (c :: f) in W. change (10 ^ 4) with (1000 * 10) in W. pose proof (pow10 (N.of_nat (List.length f))). apply (N.mul_le_mono_pos_r _ _ (10 ^ N.of_nat (List.length f))); [assumption|].
    rewrite W. revert B. generalize (10 ^ N.of_nat (List.length f)) (dec_value (c :: f)). intros. lia.
Qed.
Lemma dec_value_zero : forall l, dec_value (48 :: l) = dec_value l.
Proof. reflexivity. Qed.
Lemma g_big : forall t, gen spvalue t -> big t.
Proof.
  intros t H. apply g_inv_or in H. destruct H as [H|H]; pieces H;
    repeat match goal with G : gen posdec _ |- _ => apply g_posdec in G; let c := fresh "c" in destruct G as (c & -> & G) | G : gen (digits _ _) _ |- _ => apply g_upto in G; destruct G as [? ?] end;
    cbn [List.concat app]; rewrite ?app_nil_r.
  - change (big (48 :: 46 :: c :: x1)). apply big_text; [unfold dec; lia | constructor; [unfold dec; lia | assumption] | cbn [List.length]; lia|]. rewrite dec_value_zero. cbn [List.length].
    rewrite Nat2N.inj_succ, N.pow_succ_r'. pose proof (dec_at_least c x1 ltac:(lia)). lia.
  - apply big_text; [unfold dec; lia | assumption | lia|]. pose proof (dec_at_least c x1 ltac:(lia)). lia.
Qed.
Definition ratio (n x : N) : Prop := 1000 <= n < 10 ^ 5 /\ nearest 23 8 n 10000 x.
Definition s_good (o : option s_range) : Prop :=
  match o with
  | Some (SDiscrete xs) => (exists x n, xs = [x] /\ ratio n x) \/ ((2 <= List.length xs)%nat /\ exists ns, Forall2 ratio ns xs /\ rising 0 ns)
  | Some (SRange x y) => exists n m, ratio n x /\ ratio m y /\ n < m
  | None => False
  end.
Definition p_good (r : p_range) : Prop := exists n m, ratio n (par_min r) /\ ratio m (par_max r) /\ n < m.
Definition q_good (x : N) : Prop := exists k, k <= 100 /\ nearest 23 8 (k * 100) 10000 x.
Lemma sp_worth : forall t n, sp_text t -> worth t n -> n < 10 ^ 5.
Proof.
  intros t n (c & f & -> & C & F & L) (i & g & Q & I & G & Lg & W).
  destruct (cut_once 46 (c :: 46 :: f) [c] f i g) as [<- <-].
  - split; [reflexivity|]. intros [K|[]]. unfold dec in C. lia.
  - split; [exact Q | apply dec_no; [exact I|nodec]].
  - assert (B : dec_value ([c] ++ f) < 10 ^ N.of_nat (List.length ([c] ++ f))) by (apply dec_value_bound; constructor; assumption).
    change (List.length ([c] ++ f)) with (S (List.length f)) in B. rewrite Nat2N.inj_succ, N.pow_succ_r' in B.
    pose proof (pow10 (N.of_nat (List.length f))). change (10 ^ 5) with (10 * 10 ^ 4). revert W B H. generalize (dec_value ([c] ++ f)) (10 ^ N.of_nat (List.length f)). intros d k W B K.
    apply (N.mul_lt_mono_pos_r k); [exact K|]. rewrite W. change (10 ^ 4) with 10000. lia.
Qed.
Lemma sp_calm : forall t, sp_text t -> calm t /\ ~ In 45 t /\ ~ In 44 t.
Proof.
  intros t (c & f & -> & C & F & L). unfold dec in C. split; [constructor; [lia|]; constructor; [lia|]; apply dec_calm, F|].
  split; (intros [I|[I|I]]; [lia|lia|]; revert I; apply dec_no; [exact F|nodec]).
Qed.

Section WithExt.
Context {E : Ext}.
Hypothesis St : std_floats E.

Lemma sp_no_dot : forall t f, sp_text t -> t <> 46 :: f.
Proof. intros t f T Q. destruct T as (c & g & -> & C & _). injection Q as Qc _. unfold dec in C. lia. Qed.
Lemma sp_read : forall t, sp_text t -> big t -> exists x n, parse_f32 t = Ok x /\ ratio n x.
Proof.
  intros t T [[n W] B]. destruct (worth_read St t n W) as (x & X & Nx). { intro f. apply sp_no_dot, T. }
  exists x, n. split; [exact X|]. split; [|exact Nx]. split; [apply B, W | exact (sp_worth t n T W)].
Qed.
Lemma rising_read : forall ts ns k x, Forall sp_text ts -> Forall big ts -> Forall2 worth ts ns -> rising k ns -> nearest 23 8 k 10000 x ->
  exists xs, Forall2 (fun t y => parse_f32 t = Ok y) ts xs /\ ascends x xs /\ Forall2 ratio ns xs.
Proof.
  intros ts ns k x F Bg H. revert k x F Bg. induction H as [|t n ts ns W H IH]; intros k x F Bg R Nx; [exists []; split; [constructor | split; [exact I | constructor]]|].
  inversion F as [|? ? T F']; subst. inversion Bg as [|? ? Bt Bg']; subst. destruct R as [Lt R].
  destruct (worth_read St t n W) as (y & Y & Ny). { intro f. apply sp_no_dot, T. }
  destruct (IH n y F' Bg' R Ny) as (ys & A & B & C). exists (y :: ys). split; [constructor; assumption|]. split; [split; [|exact B]|].
  - exact (not_ge k n x y Lt (sp_worth t n T W) Nx Ny).
  - constructor; [|exact C]. split; [|exact Ny]. split; [apply (proj2 Bt), W | exact (sp_worth t n T W)].
Qed.
Lemma grows_read : forall sep t ts, fields sep t ts -> Forall sp_text ts -> Forall big ts -> grows sep t ->
  exists xs ns, Forall2 (fun t y => parse_f32 t = Ok y) ts xs /\ ascends 0 xs /\ Forall2 ratio ns xs /\ rising 0 ns.
Proof.
  intros sep t ts H F Bg (us & ns & G & W & R). apply fields_split in H, G. rewrite H in G. subst us.
  destruct (rising_read ts ns 0 0 F Bg W R zero_near) as (xs & A & B & C). exists xs, ns. auto.
Qed.
Lemma f2_length : forall {A B} (R : A -> B -> Prop) l m, Forall2 R l m -> List.length l = List.length m.
Proof. intros A B R l m H. induction H; cbn; congruence. Qed.
Lemma f2_cons_r : forall {A B} (R : A -> B -> Prop) l y ys, Forall2 R l (y :: ys) -> exists x xs, l = x :: xs /\ R x y /\ Forall2 R xs ys.
Proof. intros A B R l y ys H. inversion H; subst. eauto. Qed.
Lemma g_pair : forall t, gen (cats [spvalue; Lit "-"; spvalue]) t -> exists a b, t = a ++ leads 45 [b] /\ sp_text a /\ sp_text b /\ big a /\ big b.
Proof.
  intros t H. pieces H. exists x, x1. split; [|split; [apply g_spvalue; assumption|]; split; [apply g_spvalue; assumption|]; split; apply g_big; assumption]. cbn [List.concat leads flat_map app]. rewrite !app_nil_r. reflexivity.
Qed.
Lemma g_sprange : forall t, gen sprange t -> exists a b, t = [91] ++ (a ++ leads 45 [b]) ++ [93] /\ sp_text a /\ sp_text b /\
  exists x y, float_range (a ++ leads 45 [b]) x y /\ exists n m, ratio n x /\ ratio m y /\ n < m.
Proof.
  intros t H. pieces H. match goal with G : gen (Such _ _) ?u |- _ => apply g_inv_such in G; destruct G as [G Gr]; apply g_pair in G; destruct G as (a & b & -> & A & B & Ba & Bb) end.
  exists a, b. split; [cbn [List.concat]; rewrite app_nil_r; reflexivity|]. split; [assumption|]. split; [assumption|].
  assert (Fd : fields 45 (a ++ leads 45 [b]) [a; b]) by (apply fields_leads; [apply sp_calm; assumption | constructor; [apply sp_calm; assumption|constructor]]).
  destruct (grows_read _ _ _ Fd ltac:(repeat constructor; assumption) ltac:(constructor; [|constructor]; auto) Gr) as (xs & ns & F2 & As & Ra & Ri).
  inversion F2 as [|? u ? us P1 F3]; subst. inversion F3 as [|? v ? vs P2 F4]; subst. inversion F4; subst. destruct As as (_ & As & _).
  exists u, v. split; [exists a, b; auto|]. apply f2_cons_r in Ra. destruct Ra as (n & ns1 & -> & R1 & Ra). apply f2_cons_r in Ra. destruct Ra as (m & ns2 & -> & R2 & Ra).
  exists n, m. destruct Ri as (_ & Lt & _). auto.
Qed.
Definition par_ok (v : str) : Prop := exists r, par_value v r /\ p_good r.
Definition sar_ok (v : str) : Prop := exists r, sar_value v r /\ s_good r.
Lemma sprange_item : forall p a b, calm p -> sp_text a -> sp_text b -> item (p ++ [91] ++ (a ++ leads 45 [b]) ++ [93]).
Proof.
  intros p a b P A B. right. exists p, (a ++ leads 45 [b]), []. split; [reflexivity|]. split; [exact P|]. split; [|constructor].
  apply calm_app; [apply sp_calm, A|]. cbn [leads flat_map]. rewrite app_nil_r. constructor; [lia | apply sp_calm, B].
Qed.
Lemma g_par : forall p t, calm p -> gen sprange t -> item (p ++ t) /\ par_ok t.
Proof.
  intros p t P H. apply g_sprange in H. destruct H as (a & b & -> & A & B & x & y & R & Gd). split; [apply sprange_item; assumption|].
  exists {| par_min := x; par_max := y |}. split; [eexists; split; [reflexivity | exact R] | exact Gd].
Qed.
Lemma g_sar : forall p t, calm p -> gen srange t -> item (p ++ t) /\ sar_ok t.
Proof.
  intros p t P H. apply g_inv_or in H. destruct H as [H|H].
  - assert (Bg := g_big t H). apply g_spvalue in H. split; [left; apply calm_app; [exact P | apply sp_calm, H]|]. destruct (sp_read t H Bg) as (x & n & X & Rx).
    exists (Some (SDiscrete [x])). split; [|left; exists x, n; auto]. left. split; [|exists x; auto]. destruct H as (c & f & -> & C & _). intros y Q. injection Q as Qc _. unfold dec in C. lia.
  - apply g_inv_or in H. destruct H as [H|H].
    + apply g_sprange in H. destruct H as (a & b & -> & A & B & x & y & R & Gd). split; [apply sprange_item; assumption|].
      exists (Some (SRange x y)). split; [|exact Gd]. right. eexists. split; [reflexivity|]. left. split; [|exists x, y; auto]. apply in_app_iff. right. left. reflexivity.
    + pieces H. match goal with G : gen (Such _ _) ?u |- _ => apply g_inv_such in G; destruct G as [G Gr]; apply g_inv_cat in G; destruct G as (a & b & -> & A & B) end.
      assert (Ba := g_big a A). apply g_spvalue in A. apply (g_inv_leads1 44) in B; [|reflexivity]. destruct B as (l & Ne & L & ->).
      assert (L' : Forall sp_text l) by (eapply Forall_impl; [|exact L]; apply g_spvalue). assert (Bl : Forall big l) by (eapply Forall_impl; [|exact L]; apply g_big). clear L.
      cbn [List.concat]. rewrite app_nil_r. split.
      * right. exists p, a, l. split; [rewrite <- !app_assoc; reflexivity|]. split; [exact P|]. split; [apply sp_calm, A|]. eapply Forall_impl; [|exact L']. intros t T. apply sp_calm, T.
      * assert (Fd : fields 44 (a ++ leads 44 l) (a :: l)).
        { apply fields_leads; [apply sp_calm, A|]. eapply Forall_impl; [|exact L']. intros t T. apply sp_calm, T. }
        destruct (grows_read _ _ _ Fd ltac:(constructor; assumption) ltac:(constructor; assumption) Gr) as (xs & ns & F2 & As & Ra & Ri).
        exists (Some (SDiscrete xs)). split.
        2:{ right. split; [|exists ns; auto]. rewrite <- (f2_length _ _ _ F2). destruct l; [congruence|]. cbn. lia. }
        right. exists (a ++ leads 44 l). split; [reflexivity|]. right. left. split; [|split; [|exists (a :: l), xs; auto]].
        -- intro I. apply in_app_iff in I. destruct I as [I|I]; [exact (proj1 (proj2 (sp_calm _ A)) I)|].
           revert I. apply no_in_leads; [lia|]. eapply Forall_impl; [|exact L']. intros t T. apply sp_calm, T.
        -- apply in_app_iff. right. destruct l; [congruence|]. left. reflexivity.
Qed.
Lemma g_q : forall p t, calm p -> gen qvalue t -> item (p ++ t) /\ exists x, parse_f32 t = Ok x /\ q_good x.
Proof.
  intros p t P H. assert (Q : exists c f, t = c :: 46 :: f /\ dec c /\ Forall dec f /\ exists k, k <= 100 /\ worth t (k * 100)).
  { apply g_inv_or in H. destruct H as [H|H]; apply g_inv_cat in H; destruct H as (a & b & -> & A & B); apply g_inv_lit in A; subst a.
    - apply g_upto in B. exists 48, b. split; [reflexivity|]. split; [unfold dec; lia|]. split; [apply B|]. destruct B as [B L].
      exists (dec_value b * 10 ^ (2 - N.of_nat (List.length b))). split.
      + pose proof (dec_value_bound b B) as Bb. assert (Q : 10 ^ 2 = 10 ^ N.of_nat (List.length b) * 10 ^ (2 - N.of_nat (List.length b))) by (rewrite <- N.pow_add_r; f_equal; lia).
        change 100 with (10 ^ 2). rewrite Q. apply N.mul_le_mono_r. lia.
      + exists [48], b. split; [reflexivity|]. split; [repeat constructor; unfold dec; lia|]. split; [exact B|]. split; [lia|]. change ([48] ++ b) with (48 :: b). rewrite dec_value_zero.
        change 100 with (10 ^ 2). rewrite <- !N.mul_assoc, <- !N.pow_add_r. do 2 f_equal. lia.
    - apply g_row in B; [|lia]. destruct B as (Nb & B & L). exists 49, b. split; [reflexivity|]. split; [unfold dec; lia|].
      assert (B' : Forall dec b) by (eapply Forall_impl; [|exact B]; intros c ->; unfold dec; lia). split; [exact B'|]. exists 100. split; [lia|].
      exists [49], b. split; [reflexivity|]. split; [repeat constructor; unfold dec; lia|]. split; [exact B'|]. split; [lia|]. clear B'. destruct b as [|x [|y [|]]]; [congruence| | |cbn in L; lia]; repeat match goal with F : Forall _ (_ :: _) |- _ => let Q := fresh in inversion F as [|? ? Q]; clear F end; subst; reflexivity. }
  destruct Q as (c & f & -> & C & F & k & K & W). split.
  - left. apply calm_app; [exact P|]. unfold dec in C. constructor; [lia|]. constructor; [lia|]. apply dec_calm, F.
  - destruct (worth_read St _ _ W) as (x & X & Nx). { intros g Q. injection Q as Q _. unfold dec in C. lia. }
    exists x. split; [exact X|]. exists k. auto.
Qed.

(** ** Key-value pairs *)
Lemma strip_prefix_app : forall p v, strip_prefix p (p ++ v) = Some v.
Proof. induction p as [|c p IH]; intro v; cbn; [reflexivity|]. rewrite N.eqb_refl. apply IH. Qed.
Lemma prefixed_all : forall {A} (R : str -> A -> Prop) (G : A -> Prop) p opts, Forall (fun o => forall v, o = p ++ v -> exists r, R v r /\ G r) opts ->
  exists vs rs, prefixed p opts vs /\ Forall2 R vs rs /\ Forall G rs.
Proof.
  intros A R G p opts F. induction F as [|o opts O F (vs & rs & P & H & Hg)]; [exists [], []; repeat split; constructor|].
  destruct (strip_prefix p o) as [v|] eqn:W.
  - apply strip_prefix_some in W. subst o. destruct (O v eq_refl) as (r & Rr & Gr). exists (v :: vs), (r :: rs). split; [|split]; constructor; assumption.
  - exists vs, rs. split; [|auto]. constructor; [|exact P]. intros v ->. rewrite strip_prefix_app in W. discriminate.
Qed.
Definition key_ok (o : str) : Prop := item o /\ (forall v, o = lit "sar=" ++ v -> exists r, sar_value v r /\ s_good r) /\
  (forall v, o = lit "par=" ++ v -> exists r, par_value v r /\ p_good r) /\ (forall v, o = lit "q=" ++ v -> exists x, parse_f32 v = Ok x /\ q_good x).
Lemma alnum_calm : forall c, alpha_num c -> c <> 32 /\ c <> 44 /\ c <> 91 /\ c <> 93 /\ c <> 61.
Proof. unfold alpha_num. intros c C. lia. Qed.
Lemma g_key : forall o, gen set_key_value o -> key_ok o.
Proof.
  intros o H. apply g_inv_or in H. destruct H as [H|H].
  { apply g_inv_cat in H. destruct H as (a & t & -> & A & T). apply g_inv_lit in A. subst a. change (of_string "sar=") with (lit "sar=").
    destruct (g_sar (lit "sar=") t ltac:(calms) T) as [I R]. split; [exact I|]. split; [|split]; intros v Q; try discriminate Q. apply app_inv_head in Q. subst. exact R. }
  apply g_inv_or in H. destruct H as [H|H].
  { apply g_inv_cat in H. destruct H as (a & t & -> & A & T). apply g_inv_lit in A. subst a. change (of_string "par=") with (lit "par=").
    destruct (g_par (lit "par=") t ltac:(calms) T) as [I R]. split; [exact I|]. split; [|split]; intros v Q; try discriminate Q. apply app_inv_head in Q. subst. exact R. }
  apply g_inv_or in H. destruct H as [H|H].
  { apply g_inv_cat in H. destruct H as (a & t & -> & A & T). apply g_inv_lit in A. subst a. change (of_string "q=") with (lit "q=").
    destruct (g_q (lit "q=") t ltac:(calms) T) as [I R]. split; [exact I|]. split; [|split]; intros v Q; try discriminate Q. apply app_inv_head in Q. subst. exact R. }
  cbn [alt] in H. apply g_inv_cats in H. destruct H as (ps & F & ->). apply f2_cons in F. destruct F as (n & r & -> & G1 & F). apply f2_cons in F. destruct F as (e & r2 & -> & G2 & F).
  apply f2_cons in F. destruct F as (w & r3 & -> & G3 & F). apply f2_nil in F. subst r3. apply g_inv_lit in G2. subst e.
  apply g_inv_such in G1. destruct G1 as [G1 K]. apply g_inv_many1_chr in G1, G3. destruct G1 as [_ Fn], G3 as [_ Fw].
  cbn [List.concat]. rewrite app_nil_r. change (of_string "=") with [61]. cbn [app].
  assert (N61 : ~ In 61 n) by (intro I; rewrite Forall_forall in Fn; specialize (alnum_calm _ (Fn _ I)); tauto).
  assert (X : forall k v, ~ In 61 k -> ~ In k (map of_string ["sar"; "par"; "q"]%string) \/ n ++ 61 :: w <> k ++ 61 :: v).
  { intros k v Nk. destruct (list_eq_dec N.eq_dec n k) as [<-|Ne]; [left; exact K|]. right. intro Q.
    destruct (cut_once 61 (n ++ 61 :: w) n w k v) as [Q1 _]; [split; auto|split; auto|]. contradiction. }
  split; [|split; [|split]].
  - left. apply calm_app; [eapply Forall_impl; [|exact Fn]; intros c C; apply alnum_calm in C; tauto|]. constructor; [lia|].
    eapply Forall_impl; [|exact Fw]. intros c [C|C]; [apply alnum_calm in C; tauto|]. cbn in C. lia.
  - intros v Q. exfalso. destruct (X (lit "sar") v) as [Y|Y]; [cbn; lia| |exact (Y Q)]. apply Y. left. reflexivity.
  - intros v Q. exfalso. destruct (X (lit "par") v) as [Y|Y]; [cbn; lia| |exact (Y Q)]. apply Y. right. left. reflexivity.
  - intros v Q. exfalso. destruct (X (lit "q") v) as [Y|Y]; [cbn; lia| |exact (Y Q)]. apply Y. right. right. left. reflexivity.
Qed.

(** ** Sets *)
Definition set_good (s : image_set) : Prop := xy_good (set_x s) /\ xy_good (set_y s) /\
  (forall r, set_sar s = Some r -> s_good (Some r)) /\ (forall r, set_par s = Some r -> p_good r) /\ (forall x, set_q s = Some x -> q_good x).
Lemma last_good : forall {A} (G : A -> Prop) l x, Forall G l -> last_of l = Some x -> G x.
Proof.
  intros A G l x F H. destruct l as [|y l _] using rev_ind; [discriminate H|]. unfold last_of in H. rewrite rev_unit in H. injection H as <-. apply Forall_app in F. destruct F as [_ F]. inversion F; assumption.
Qed.
Lemma somes_good : forall l, Forall s_good l -> Forall (fun r => s_good (Some r)) (somes l).
Proof. intros l F. induction F as [|[r|] l R F IH]; cbn [somes]; [constructor | constructor; assumption | exact IH]. Qed.
Definition set_ok (t : str) : Prop := one_token 32 t /\ (exists x, image_set_value t x /\ set_good x) /\ starts_solid t /\ ends_solid t.
Lemma g_set : forall t, gen image_set_rule t -> set_ok t.
Proof.
  intros t H.
  assert (Q : exists xt yt ks, t = [91] ++ ((lit "x=" ++ xt) ++ leads 44 ((lit "y=" ++ yt) :: ks)) ++ [93] /\ gen xyrange xt /\ gen xyrange yt /\ Forall (gen set_key_value) ks).
  { pieces H. match goal with G : gen (Many _) _ |- _ => apply (g_inv_leads 44) in G; [|reflexivity]; destruct G as (ks & Fk & ->) end.
    exists x0, x2, ks. split; [|auto]. cbn [List.concat leads flat_map]. repeat (rewrite ?app_nil_r, <- ?app_assoc; cbn [app]). reflexivity. }
  destruct Q as (xt & yt & ks & -> & Hx & Hy & Hk).
  destruct (g_xyrange (lit "x=") xt ltac:(calms) Hx) as [Ix (xr & Vx & Gx)]. destruct (g_xyrange (lit "y=") yt ltac:(calms) Hy) as [Iy (yr & Vy & Gy)].
  assert (Ko : Forall key_ok ks) by (eapply Forall_impl; [|exact Hk]; apply g_key).
  assert (It : Forall item ((lit "x=" ++ xt) :: (lit "y=" ++ yt) :: ks)).
  { constructor; [exact Ix|]. constructor; [exact Iy|]. eapply Forall_impl; [|exact Ko]. intros o O. apply O. }
  split; [|split; [|split]].
  - apply single.
    + intro I. apply in_app_iff in I. destruct I as [[I|[]]|I]; [discriminate|]. apply in_app_iff in I. destruct I as [I|[I|[]]]; [|discriminate].
      inversion It as [|? ? I1 I2]; subst. apply in_app_iff in I. destruct I as [I|I]; [exact (item_no32 _ I1 I)|].
      revert I. apply no_in_leads; [lia|]. eapply Forall_impl; [|exact I2]. apply item_no32.
    + apply both_weight; [left; reflexivity|]. apply in_app_iff. right. apply in_app_iff. right. left. reflexivity.
  - destruct (prefixed_all sar_value s_good (lit "sar=") ks) as (v1 & r1 & P1 & F1 & G1). { eapply Forall_impl; [|exact Ko]. intros o O. apply O. }
    destruct (prefixed_all par_value p_good (lit "par=") ks) as (v2 & r2 & P2 & F2 & G2). { eapply Forall_impl; [|exact Ko]. intros o O. apply O. }
    destruct (prefixed_all (fun t x => parse_f32 t = Ok x) q_good (lit "q=") ks) as (v3 & r3 & P3 & F3 & G3). { eapply Forall_impl; [|exact Ko]. intros o O. apply O. }
    exists {| set_x := xr; set_y := yr; set_sar := last_of (somes r1); set_par := last_of r2; set_q := last_of r3 |}.
    split.
    2:{ split; [exact Gx|]. split; [exact Gy|]. cbn [set_sar set_par set_q]. split; [|split]; intros r Q; [|exact (last_good _ _ _ G2 Q) | exact (last_good _ _ _ G3 Q)].
        exact (last_good (fun r => s_good (Some r)) _ _ (somes_good _ G1) Q). }
    eexists _, xt, yt, ks. split; [reflexivity|]. split; [apply tokens_of; eapply Forall_impl; [|exact It]; apply item_token|].
    split; [exact Vx|]. split; [exact Vy|]. split; [exists v1, r1; auto|]. split; [exists v2, r2; auto|]. exists v3, r3; auto.
  - exists 91. eexists. split; reflexivity.
  - rewrite app_assoc. exists 93. eexists. split; reflexivity.
Qed.
Definition list_good (l : image_set_list) : Prop := match l with SetsWildcard => True | Sets sets => sets <> [] /\ Forall set_good sets end.
Definition list_ok (t : str) : Prop := exists u us l, t = u ++ leads 32 us /\ Forall (one_token 32) (u :: us) /\ (image_list_value (u :: us) l /\ list_good l) /\ ends_solid t.
Lemma g_image_list : forall t, gen image_list_rule t -> list_ok t.
Proof.
  intros t H. apply g_inv_or in H. destruct H as [H|H].
  - apply g_inv_lit in H. subst t. exists (lit "*"), [], SetsWildcard. split; [reflexivity|]. split; [|split; [split; [left; auto | exact I]|]].
    + constructor; [|constructor]. apply single; [cbn; lia | reflexivity].
    + exists 42, []. split; reflexivity.
  - apply (g_inv_list 32) in H; [|reflexivity]. destruct H as (u & us & F & ->).
    assert (F' : Forall set_ok (u :: us)) by (eapply Forall_impl; [|exact F]; apply g_set). clear F.
    assert (V : exists sets, Forall2 image_set_value (u :: us) sets /\ Forall set_good sets).
    { induction F' as [|t l T F IH]; [exists []; split; constructor|]. destruct IH as (sets & IH & Ig). destruct T as (_ & (x & X & Xg) & _). exists (x :: sets). split; constructor; assumption. }
    destruct V as (sets & V & Vg). exists u, us, (Sets sets). split; [reflexivity|]. split; [eapply Forall_impl; [|exact F']; intros t T; apply T|]. split.
    + split; [right; split; [discriminate|]; exists sets; auto|]. split; [|exact Vg]. inversion V; subst. discriminate.
    + destruct us as [|z us _] using rev_ind.
      * cbn [leads flat_map]. rewrite app_nil_r. inversion F' as [|? ? U _]; subst. apply U.
      * rewrite leads_app. cbn [leads flat_map]. rewrite app_nil_r. change (32 :: z) with ([32] ++ z). rewrite !app_assoc. apply ends_app.
        change (u :: us ++ [z]) with ((u :: us) ++ [z]) in F'. apply Forall_app in F'. destruct F' as [_ Z]. inversion Z as [|? ? Zo _]; subst. apply Zo.
Qed.

(** ** Lines *)
Lemma way_solid : forall (pt d t : str), starts_solid pt -> list_ok t -> core (pt ++ 32 :: d ++ 32 :: t) (pt ++ 32 :: d ++ 32 :: t).
Proof.
  intros pt d t P (u & us & l & -> & _ & _ & Ends). apply core_self; [apply starts_app, P|].
  replace (pt ++ 32 :: d ++ 32 :: u ++ leads 32 us) with ((pt ++ 32 :: d ++ [32]) ++ u ++ leads 32 us) by (repeat (rewrite <- app_assoc; cbn [app]); reflexivity).
  apply ends_app, Ends.
Qed.
Lemma g_one_way : forall d t, gen (one_way d) t -> exists u, t = of_string d ++ 32 :: u /\ list_ok u.
Proof. intros d t H. pieces H. eexists. split; [|apply g_image_list; eassumption]. cbn [List.concat]. rewrite app_nil_r. reflexivity. Qed.
Lemma word_token : forall d, In d ["send"; "recv"]%string -> one_token 32 (of_string d).
Proof. intros d [<-|[<-|[]]]; apply single; try reflexivity; cbn; lia. Qed.
Definition pt_good (p : payload_type_t) : Prop := gen image_payload (show_payload_type p).
Definition attr_good (a : image_attr) : Prop := pt_good (img_pt a) /\
  (list_good (img_send a) /\ list_good (img_recv a) \/ list_good (img_send a) /\ img_recv a = Sets [] \/ img_send a = Sets [] /\ list_good (img_recv a)).
Lemma g_pt : forall t, gen (Or (Lit "*") (at_most 127)) t -> starts_solid t /\ one_token 32 t /\ exists p, payload_value t p /\ pt_good p.
Proof.
  intros t H. assert (H0 := H). apply g_inv_or in H. destruct H as [H|H].
  - apply g_inv_lit in H. subst t. split; [exists 42, []; split; reflexivity|]. split; [apply single; [cbn; lia|reflexivity]|]. exists Wildcard. split; [reflexivity|]. exact H0.
  - apply g_at_most in H. destruct H as (W & F & V). split; [apply word_starts, W|]. split.
    + assert (C : calm t) by (apply dec_calm; exact F). apply single; [apply calm_no; auto | apply calm_weight, C].
    + exists (PayloadType (dec_value t)). assert (V' : dec_value t <= 127) by (destruct V as (ds & _ & _ & _ & _ & M); exact M). split; [|unfold pt_good; cbn [show_payload_type]; apply gen_or_right, PRfc9.g_at_most; [apply show_N_nonempty | apply show_N_first | rewrite dec_value_shown; exact V']]. destruct V as (ds & A & B & C & D & M). exists ds. split; [exact A|]. split; [exact B|]. split; [exact C|]. split; [exact D|]. change u8_max with 255. lia.
Qed.
Lemma one_value : forall pt dir t, starts_solid pt -> one_token 32 pt -> (exists p, payload_value pt p /\ pt_good p) -> list_ok t ->
  exists a, attr_good a /\ image_attr_value (pt ++ 32 :: of_string (single_direction_name dir) ++ 32 :: t) a.
Proof.
  intros pt dir t P Pt (p & Pv & Pg) L. assert (C := way_solid pt (of_string (single_direction_name dir)) t P L). destruct L as (u & us & l & -> & F & [V Gl] & _).
  assert (D : one_token 32 (of_string (single_direction_name dir))) by (apply word_token; destruct dir; cbn; auto).
  exists {| img_pt := p; img_send := match dir with Send => l | Recv => Sets [] end; img_recv := match dir with Send => Sets [] | Recv => l end |}.
  split; [split; [exact Pg|]; destruct dir; auto|].
  exists (pt ++ leads 32 (of_string (single_direction_name dir) :: u :: us)), pt, (of_string (single_direction_name dir)), (u :: us), [], dir, l, (Sets []).
  assert (Q : pt ++ leads 32 (of_string (single_direction_name dir) :: u :: us) = pt ++ 32 :: of_string (single_direction_name dir) ++ 32 :: u ++ leads 32 us) by reflexivity.
  rewrite Q. split; [exact C|]. rewrite <- Q. rewrite app_nil_r. split; [apply tokens_of; constructor; [exact Pt|]; constructor; assumption|]. split; [exact Pv|]. split; [reflexivity|].
  split; [exact V|]. split; [reflexivity|]. destruct dir; split; reflexivity.
Qed.
Lemma two_values : forall pt dir t t', starts_solid pt -> one_token 32 pt -> (exists p, payload_value pt p /\ pt_good p) -> list_ok t -> list_ok t' ->
  exists a, attr_good a /\ image_attr_value (pt ++ 32 :: of_string (single_direction_name dir) ++ 32 :: t ++ 32 :: of_string (single_direction_name (match dir with Send => Recv | Recv => Send end)) ++ 32 :: t') a.
Proof.
  intros pt dir t t' P Pt (p & Pv & Pg) L L'. set (d := of_string (single_direction_name dir)). set (d' := of_string (single_direction_name (match dir with Send => Recv | Recv => Send end))).
  assert (D : one_token 32 d) by (apply word_token; destruct dir; cbn; auto). assert (D' : one_token 32 d') by (apply word_token; destruct dir; cbn; auto).
  assert (C : core (pt ++ 32 :: d ++ 32 :: t ++ 32 :: d' ++ 32 :: t') (pt ++ 32 :: d ++ 32 :: t ++ 32 :: d' ++ 32 :: t')).
  { replace (pt ++ 32 :: d ++ 32 :: t ++ 32 :: d' ++ 32 :: t') with ((pt ++ 32 :: d ++ 32 :: t) ++ 32 :: d' ++ 32 :: t') by (repeat (rewrite <- app_assoc; cbn [app]); reflexivity).
    apply way_solid; [apply starts_app, P | exact L']. }
  destruct L as (u & us & l & -> & F & [V Gl] & _), L' as (u' & us' & l' & -> & F' & [V' Gl'] & _).
  exists {| img_pt := p; img_send := match dir with Send => l | Recv => l' end; img_recv := match dir with Send => l' | Recv => l end |}.
  split; [split; [exact Pg|]; destruct dir; auto|].
  exists (pt ++ leads 32 (d :: (u :: us) ++ d' :: u' :: us')), pt, d, (u :: us), (d' :: u' :: us'), dir, l, l'.
  assert (Q : pt ++ leads 32 (d :: (u :: us) ++ d' :: u' :: us') = pt ++ 32 :: d ++ 32 :: (u ++ leads 32 us) ++ 32 :: d' ++ 32 :: u' ++ leads 32 us').
  { change (leads 32 (d :: (u :: us) ++ d' :: u' :: us')) with (32 :: d ++ leads 32 ((u :: us) ++ d' :: u' :: us')). rewrite leads_app. cbn [leads flat_map]. repeat (rewrite <- app_assoc; cbn [app]). reflexivity. }
  rewrite Q. split; [exact C|]. rewrite <- Q. split; [|split; [exact Pv|]; split; [reflexivity|]; split; [exact V|]; split; [split; [reflexivity|exact V']|]; destruct dir; split; reflexivity].
  apply tokens_of. constructor; [exact Pt|]. constructor; [exact D|]. apply Forall_app. split; [exact F|]. constructor; assumption.
Qed.
Lemma g_imageattr : forall v, gen rfc_imageattr v -> (exists a, attr_good a /\ image_attr_value v a) /\ ends_solid v.
Proof.
  intros v H.
  assert (Q : exists pt r, v = pt ++ 32 :: r /\ gen (Or (Lit "*") (at_most 127)) pt /\
    gen (alt (one_way "send") [ one_way "recv"; cats [one_way "send"; Lit " "; one_way "recv"]; cats [one_way "recv"; Lit " "; one_way "send"] ]) r).
  { pieces H. exists x, x1. split; [cbn [List.concat]; rewrite app_nil_r; reflexivity | auto]. }
  destruct Q as (pt & r & -> & Hp & Hr). apply g_pt in Hp. destruct Hp as (P1 & P2 & P3). apply g_inv_alt in Hr. destruct Hr as (rule & I & G).
  assert (Two : forall d d', gen (cats [one_way d; Lit " "; one_way d']) r -> exists u u', r = of_string d ++ 32 :: u ++ 32 :: of_string d' ++ 32 :: u' /\ list_ok u /\ list_ok u').
  { clear G. intros d d' K. pieces K. apply g_one_way in G, G1. destruct G as (u & -> & U), G1 as (u' & -> & U'). exists u, u'. split; [|auto].
    cbn [List.concat]. rewrite app_nil_r. repeat (rewrite <- app_assoc; cbn [app]). reflexivity. }
  assert (Ends : forall a t, list_ok t -> ends_solid (a ++ 32 :: t)).
  { intros a t (u & us & l & -> & _ & _ & T). change (32 :: u ++ leads 32 us) with ([32] ++ u ++ leads 32 us). apply ends_app, ends_app, T. }
  destruct I as [<-|[<-|[<-|[<-|[]]]]].
  - apply g_one_way in G. destruct G as (u & -> & U). split; [exact (one_value pt Send u P1 P2 P3 U)|]. exact (Ends (pt ++ 32 :: of_string "send") u U) || (rewrite app_comm_cons, app_assoc; apply Ends, U).
  - apply g_one_way in G. destruct G as (u & -> & U). split; [exact (one_value pt Recv u P1 P2 P3 U)|]. rewrite app_comm_cons, app_assoc; apply Ends, U.
  - apply Two in G. destruct G as (u & u' & -> & U & U'). split; [exact (two_values pt Send u u' P1 P2 P3 U U')|].
    replace (pt ++ 32 :: of_string "send" ++ 32 :: u ++ 32 :: of_string "recv" ++ 32 :: u') with ((pt ++ 32 :: of_string "send" ++ 32 :: u ++ 32 :: of_string "recv") ++ 32 :: u') by (repeat (rewrite <- app_assoc; cbn [app]); reflexivity). apply Ends, U'.
  - apply Two in G. destruct G as (u & u' & -> & U & U'). split; [exact (two_values pt Recv u u' P1 P2 P3 U U')|].
    replace (pt ++ 32 :: of_string "recv" ++ 32 :: u ++ 32 :: of_string "send" ++ 32 :: u') with ((pt ++ 32 :: of_string "recv" ++ 32 :: u ++ 32 :: of_string "send") ++ 32 :: u') by (repeat (rewrite <- app_assoc; cbn [app]); reflexivity). apply Ends, U'.
Qed.
Lemma imageattr_read : forall t n, (Z.of_nat (List.length t) < 2147483648)%Z -> gen imageattr_line t ->
  exists a, attr_good a /\ parse_sdp_line t n = Ok {| l_number := n; l_type := TyAttribute (AImageAttr a); l_text := t |}.
Proof.
  intros t n L H. apply g_inv_cat in H. destruct H as (x & v & -> & X & V). apply g_inv_lit in X. subst x. destruct (g_imageattr v V) as [(a & Ag & A) Ev].
  exists a. split; [exact Ag|]. apply line_iff; [exact L|]. split; [reflexivity|]. split; [reflexivity|]. cbn [l_type].
  exists [], 97, [], (lit "imageattr:" ++ v). split; [reflexivity|]. split; [constructor|]. split; [constructor|]. split; [reflexivity|].
  exists (lit "imageattr:" ++ v). split.
  - apply core_self; [exists 105; eexists; split; reflexivity | apply ends_app, Ev].
  - right. exists (lit "imageattr"), v. split; [split; [reflexivity | cbn; lia]|]. split; [|exact A]. exact (proj2 (proj2 (name_word (AImageAttr a)))).
Qed.
Lemma imageattr_taken : forall t n, (Z.of_nat (List.length t) < 2147483648)%Z -> gen imageattr_line t ->
  exists a, parse_sdp_line t n = Ok {| l_number := n; l_type := TyAttribute (AImageAttr a); l_text := t |}.
Proof. intros t n L H. destruct (imageattr_read t n L H) as (a & _ & A). exists a. exact A. Qed.

(** ** Frame rates *)
Lemma number_pos : forall c l, 49 <= c -> 1 <= number (c :: l).
Proof.
  intros c l C. change (c :: l) with ([c] ++ l). rewrite number_app. assert (number [c] = c - 48) by (unfold number; cbn [fold_left]; lia).
  pose proof (pow10 (N.of_nat (List.length l))). nia.
Qed.
Lemma g_framerate : forall v, gen rfc_framerate v -> exists x, framerate_text v x.
Proof.
  intros v H. apply g_inv_such in H. destruct H as [H L].
  assert (Q : exists i f, (v = i /\ f = [] \/ v = i ++ 46 :: f) /\ Forall dec i /\ Forall dec f /\ 1 <= number (i ++ f) /\ i <> []).
  { apply g_inv_or in H. destruct H as [H|H].
    - apply g_inv_cat in H. destruct H as (a & b & -> & A & B). apply g_posdec in A. destruct A as (c & -> & C). apply g_inv_many_chr in B.
      exists (c :: b), []. split; [left; auto|]. split; [constructor; [unfold dec; lia | exact B]|]. split; [constructor|]. split; [rewrite app_nil_r; apply number_pos; lia | discriminate].
    - assert (Q : exists i f c, v = i ++ 46 :: f ++ [c] /\ Forall dec i /\ Forall dec f /\ 49 <= c <= 57 /\ i <> []).
      { pieces H. apply g_posdec in G2. destruct G2 as (c & -> & C). apply g_inv_many_chr in G1. exists x, x1, c.
        split; [cbn [List.concat]; rewrite app_nil_r; reflexivity|]. split; [|split; [exact G1|split; [exact C|]]].
        - apply g_inv_or in G. destruct G as [G|G]; [apply g_inv_lit in G; subst x; repeat constructor; unfold dec; cbn; lia|].
          apply g_inv_cat in G. destruct G as (a & b & -> & A & B). apply g_posdec in A. destruct A as (e & -> & Ce). apply g_inv_many_chr in B. constructor; [unfold dec; lia | exact B].
        - apply g_inv_or in G. destruct G as [G|G]; [apply g_inv_lit in G; subst x; discriminate|].
          apply g_inv_cat in G. destruct G as (a & b & -> & A & B). apply g_posdec in A. destruct A as (e & -> & _). discriminate. }
      destruct Q as (i & f & c & -> & I & F & C & Ne). exists i, (f ++ [c]). split; [right; reflexivity|]. split; [exact I|].
      split; [apply Forall_app; split; [exact F | constructor; [unfold dec; lia|constructor]]|]. split; [|exact Ne]. rewrite app_assoc, number_snoc. lia. }
  destruct Q as (i & f & Ev & I & F & Pos & Ne).
  assert (D : decimal_text v (number (i ++ f)) (- Z.of_nat (List.length f))).
  { exists i, f, [], 0%Z. split; [destruct Ev as [[-> ->]| ->]; [left | right]; rewrite app_nil_r; auto|]. split; [apply dec_digits, I|]. split; [apply dec_digits, F|].
    split; [destruct i; [congruence|discriminate]|]. split; [left; auto|]. split; [reflexivity|lia]. }
  assert (Len : (List.length (i ++ f) <= 300)%nat).
  { rewrite app_length. destruct Ev as [[-> ->]| ->]; [cbn; lia|]. rewrite app_length in L. cbn [List.length] in L. lia. }
  set (z := (- Z.of_nat (List.length f))%Z) in *.
  assert (Nr := round_nearest 52 11 p52 w11 (scaled_num (number (i ++ f)) z) (scaled_den z) (pow10 _)).
  set (m := Ext0.round 52 11 (scaled_num (number (i ++ f)) z) (scaled_den z)) in *.
  assert (B : number (i ++ f) < 10 ^ N.of_nat (List.length (i ++ f))) by (apply number_lt; apply Forall_app; split; apply dec_digits; assumption).
  assert (B2 : 10 ^ N.of_nat (List.length (i ++ f)) <= 10 ^ 300) by (apply N.pow_le_mono_r; lia).
  assert (Zn : Z.to_N z = 0) by (unfold z; lia). assert (Zd : Z.to_N (- z) = N.of_nat (List.length f)) by (unfold z; lia).
  destruct (finite64 (scaled_num (number (i ++ f)) z) (scaled_den z) m) as [M1 M2].
  - unfold scaled_num. rewrite Zn, N.pow_0_r, N.mul_1_r. lia.
  - apply pow10.
  - unfold scaled_den. rewrite Zd. apply N.pow_le_mono_r; [lia|]. rewrite app_length in Len. lia.
  - unfold scaled_num. rewrite Zn, N.pow_0_r, N.mul_1_r. apply N.le_trans with (1 * 10 ^ 300); [rewrite N.mul_1_l; lia|]. apply N.mul_le_mono_r. pose proof (pow10 (Z.to_N (- z))) as X. unfold scaled_den. lia.
  - exact Nr.
  - exists m, [], v, (number (i ++ f)), z, m. split; [cbn [app]|]; [|split; [exact D|]; split; [exact Nr|]; auto].
    apply word_core. destruct Ev as [[-> _]| ->].
    + split; [exact Ne|]. eapply Forall_impl; [|exact I]. apply digit_solid.
    + split; [destruct i; discriminate|]. apply Forall_app. split; [eapply Forall_impl; [|exact I]; apply digit_solid|]. constructor; [reflexivity|]. eapply Forall_impl; [|exact F]. apply digit_solid.
Qed.
Lemma framerate_taken : forall t n, gen framerate_line t ->
  exists x, parse_sdp_line t n = Ok {| l_number := n; l_type := TyAttribute (AFrameRate x); l_text := t |}.
Proof.
  intros t n H. apply g_inv_cat in H. destruct H as (x & v & -> & X & V). apply g_inv_lit in X. subst x. destruct (g_framerate v V) as [x Hx].
  exists x. apply (framerate_lines St). exists x. split; [exact Hx | reflexivity].
Qed.
End WithExt.

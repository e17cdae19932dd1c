(** * Proofs: two sessions in one text (C90) *)
From Coq Require Import List Arith NArith ZArith Lia Bool Ascii String.
From Coq Require Import ZifyBool ZifyNat ZifyN.
From Verif Require Import Str Num Net Types Ext AttrParse Media Session SpecDoc SpecOnce.
From Verif Require Import StrLemmas PDoc2 PDoc3.
Import ListNotations.
Open Scope nat_scope.
Open Scope list_scope.

(** ** Lines in the middle of a text *)
Lemma lines_cut : forall n a b, List.length a <= n ->
  exists l, lines (a ++ c_lf :: b) = l ++ lines b.
Proof.
  induction n as [|n IH]; intros a b L.
  - destruct a; [|cbn in L; lia]. exists [strip_cr []]. exact (lines_lf [] b eq_refl).
  - destruct (split_once c_lf a) as [[p q]|] eqn:S.
    + apply split_once_some in S. destruct S as [-> N]. rewrite app_length in L. cbn [List.length] in L.
      destruct (IH q b) as (l & H); [lia|]. exists (strip_cr p :: l).
      rewrite <- app_assoc. cbn [app]. rewrite lines_lf by exact N. rewrite H. reflexivity.
    + apply split_once_none_inv in S. exists [strip_cr a]. rewrite lines_lf by exact S. reflexivity.
Qed.
Lemma lines_inner : forall l1 a x l2, lines a = l1 ++ x :: l2 -> l1 <> [] -> l2 <> [] ->
  exists u y v, a = u ++ c_lf :: y ++ c_lf :: v /\ no_lf y /\ strip_cr y = x.
Proof.
  induction l1 as [|z l1 IH]; intros a x l2 H N1 N2; [destruct (N1 eq_refl)|]. clear N1.
  destruct (split_once c_lf a) as [[p q]|] eqn:S.
  - apply split_once_some in S. destruct S as [-> N]. rewrite lines_lf in H by exact N. cbn [app] in H. injection H as _ H.
    destruct l1 as [|z' l1].
    + cbn [app] in H. destruct (split_once c_lf q) as [[p' q']|] eqn:S.
      * apply split_once_some in S. destruct S as [-> N']. rewrite lines_lf in H by exact N'. injection H as H _.
        exists p, p', q'. auto.
      * apply split_once_none_inv in S. destruct q as [|c q]; [discriminate H|]. rewrite lines_last in H by (exact S || discriminate).
        injection H as _ H. destruct (N2 (eq_sym H)).
    + destruct (IH q x l2 H) as (u & y & v & -> & Y & E); [discriminate|exact N2|].
      exists (p ++ c_lf :: u), y, v. split; [rewrite <- app_assoc; reflexivity|auto].
  - apply split_once_none_inv in S. exfalso. destruct a as [|c a]; [discriminate H|].
    rewrite lines_last in H by (exact S || discriminate). injection H as _ H. destruct l1; discriminate H.
Qed.
Lemma two_inner : forall p u y v m u' y' v' q, no_lf y -> no_lf y' -> exists l1 l2 l3,
  lines (p ++ (u ++ c_lf :: y ++ c_lf :: v) ++ m ++ (u' ++ c_lf :: y' ++ c_lf :: v') ++ q) =
  l1 ++ strip_cr y :: l2 ++ strip_cr y' :: l3.
Proof.
  intros p u y v m u' y' v' q N N'.
  destruct (lines_cut _ (p ++ u) (y ++ c_lf :: v ++ m ++ (u' ++ c_lf :: y' ++ c_lf :: v') ++ q) (le_n _)) as (l1 & H1).
  destruct (lines_cut _ (v ++ m ++ u') (y' ++ c_lf :: v' ++ q) (le_n _)) as (l2 & H2).
  exists l1, l2, (lines (v' ++ q)). repeat (rewrite <- app_assoc in * || cbn [app] in * ). rewrite H1.
  rewrite lines_lf by exact N. rewrite H2. rewrite lines_lf by exact N'. reflexivity.
Qed.

Section WithExt.
Context {E : Ext}.
Lemma blank_unread : forall line n l, blank line -> parse_sdp_line line n <> Ok l.
Proof.
  intros line n l B. unfold parse_sdp_line. destruct (contains c_eq line) eqn:C; [|discriminate]. exfalso.
  apply contains_In in C. unfold blank in B. rewrite Forall_forall in B. apply B in C. discriminate C.
Qed.
Lemma same_line : forall line n m l, parse_sdp_line line n = Ok l ->
  exists l', parse_sdp_line line m = Ok l' /\ l_type l' = l_type l.
Proof. intros line n m l H. rewrite (line_renumber line n m), H. eexists. split; [reflexivity|reflexivity]. Qed.
(** The types of two lines of a text are among those that were read, in order. *)
Lemma two_read : forall l1 x l2 y l3 k ts ws n m lx ly, Reads k (l1 ++ x :: l2 ++ y :: l3) ts ws ->
  parse_sdp_line x n = Ok lx -> parse_sdp_line y m = Ok ly ->
  exists t1 t2 t3, ts = t1 ++ l_type lx :: t2 ++ l_type ly :: t3.
Proof.
  assert (One : forall x l k ts ws n lx, Reads k (x :: l) ts ws -> parse_sdp_line x n = Ok lx ->
    exists t w, ts = l_type lx :: t /\ Reads (S k) l t w).
  { intros x l k ts ws n lx R P. destruct (same_line x n k lx P) as (l' & P' & T). inversion R; subst.
    - destruct (blank_unread x k l'); assumption.
    - match goal with K : parse_sdp_line x k = Ok ?z |- _ => rewrite P' in K; injection K as <- end. rewrite T. eauto.
    - match goal with K : parse_sdp_line x k = Err _ |- _ => rewrite P' in K; discriminate K end. }
  intros l1 x l2 y l3 k ts ws n m lx ly R Px Py. apply Reads_app in R. destruct R as (t1 & t2 & w1 & w2 & _ & R & -> & _).
  destruct (One _ _ _ _ _ _ _ R Px) as (t & w & -> & R2). apply Reads_app in R2.
  destruct R2 as (t3 & t4 & w3 & w4 & _ & R3 & -> & _). destruct (One _ _ _ _ _ _ _ R3 Py) as (t' & w' & -> & _). eauto.
Qed.
Definition opening (a : sdp_type) : bool := match a with TyVersion _ | TyOrigin _ | TySession _ => true | _ => false end.
Lemma opening_once : forall t1 a t2 b t3 s, opens a b -> ~ Assembles (t1 ++ a :: t2 ++ b :: t3) s.
Proof.
  intros t1 a t2 b t3 s O (name & head & secs & H & _ & Hh & Hs & _).
  assert (Rest : Forall (fun t => opening t = false) (head ++ flat_map section_lines secs)).
  { apply Forall_app. split.
    - eapply Forall_impl; [|exact Hh]. intros []; cbn; auto; contradiction.
    - clear - Hs. induction Hs as [|(m & l) secs (K & _) _ IH]; [constructor|]. cbn [flat_map section_lines fst snd app].
      constructor; [reflexivity|]. apply Forall_app. split; [|exact IH]. eapply Forall_impl; [|exact K]. intros []; cbn; auto; contradiction. }
  assert (Later : In b (head ++ flat_map section_lines secs) -> False).
  { intro I. rewrite Forall_forall in Rest. apply Rest in I.
    destruct O; discriminate I. }
  destruct t1 as [|x1 t1]; cbn [app] in H.
  - injection H as -> H. destruct t2 as [|x2 t2]; cbn [app] in H.
    + injection H as -> H. inversion O.
    + injection H as _ H. destruct t2 as [|x3 t2]; cbn [app] in H.
      * injection H as -> H. inversion O.
      * injection H as _ H. apply Later. rewrite <- H. apply in_or_app. right. left. reflexivity.
  - injection H as _ H. destruct t1 as [|x2 t1]; cbn [app] in H.
    + injection H as -> H. destruct t2 as [|x3 t2]; cbn [app] in H.
      * injection H as -> H. inversion O.
      * injection H as _ H. apply Later. rewrite <- H. apply in_or_app. right. left. reflexivity.
    + injection H as _ H. apply Later. destruct t1 as [|x3 t1]; cbn [app] in H.
      * injection H as _ H. rewrite <- H. apply in_or_app. right. left. reflexivity.
      * injection H as _ H. rewrite <- H. apply in_or_app. right. right. apply in_or_app. right. left. reflexivity.
Qed.
Lemma twice_unread : forall sdp b s l1 x l2 y l3 n m lx ly, lines sdp = l1 ++ x :: l2 ++ y :: l3 ->
  parse_sdp_line x n = Ok lx -> parse_sdp_line y m = Ok ly -> opens (l_type lx) (l_type ly) -> parse_sdp sdp b <> Ok s.
Proof.
  intros sdp b s l1 x l2 y l3 n m lx ly L Px Py O P. apply document in P.
  destruct P as (_ & ts & ws & R & _ & _ & _ & A & _). rewrite L in R.
  destruct (two_read _ _ _ _ _ _ _ _ _ _ _ _ R Px Py) as (t1 & t2 & t3 & ->). exact (opening_once _ _ _ _ _ _ O A).
Qed.
(** The lines before and after a line that was read. *)
Lemma read_at : forall k ls ts ws, Reads k ls ts ws -> forall t1 t t2, ts = t1 ++ t :: t2 ->
  exists l1 x l2 n l, ls = l1 ++ x :: l2 /\ parse_sdp_line x n = Ok l /\ l_type l = t /\ (t1 <> [] -> l1 <> []) /\ (t2 <> [] -> l2 <> []).
Proof.
  assert (NE : forall k ls ts ws, Reads k ls ts ws -> ts <> [] -> ls <> []).
  { intros k ls ts ws [] K; try discriminate. destruct (K eq_refl). }
  intros k ls ts ws R. induction R; intros t1 t t2 Et.
  - destruct t1; discriminate.
  - destruct (IHR _ _ _ Et) as (l1 & x & l2 & n' & l & -> & P & T & N1 & N2).
    exists (line :: l1), x, l2, n', l. repeat split; auto. intros; discriminate.
  - destruct t1 as [|z t1]; cbn [app] in Et; injection Et as E1 E2.
    + exists [], line, rest, n, l. repeat split; auto. subst t2. intro K. exact (NE _ _ _ _ R K).
    + destruct (IHR _ _ _ E2) as (l1 & x & l2 & n' & l' & -> & P & T & N1 & N2).
      exists (line :: l1), x, l2, n', l'. repeat split; auto. intros; discriminate.
  - destruct (IHR _ _ _ Et) as (l1 & x & l2 & n' & l & -> & P & T & N1 & N2).
    exists (line :: l1), x, l2, n', l. repeat split; auto. intros; discriminate.
Qed.
Lemma origin_inner : forall sdp b s, parse_sdp sdp b = Ok s -> exists u y v n l o,
  sdp = u ++ c_lf :: y ++ c_lf :: v /\ no_lf y /\ parse_sdp_line (strip_cr y) n = Ok l /\ l_type l = TyOrigin o.
Proof.
  intros sdp b s P. apply document in P. destruct P as (_ & ts & ws & R & _ & _ & _ & A & _).
  destruct A as (name & head & secs & Et & _).
  destruct (read_at _ _ _ _ R [TyVersion (s_version s)] (TyOrigin (s_origin s)) _ Et) as (l1 & x & l2 & n & l & L & P & T & N1 & N2).
  destruct (lines_inner _ _ _ _ L) as (u & y & v & K & N & Y); [apply N1; discriminate|apply N2; discriminate|]. subst x. 
  exists u, y, v, n, l, (s_origin s). auto.
Qed.
Lemma two_sessions : forall a b s1 s2 st1 st2 st p m q s, parse_sdp a st1 = Ok s1 -> parse_sdp b st2 = Ok s2 ->
  parse_sdp (p ++ a ++ m ++ b ++ q) st <> Ok s.
Proof.
  intros a b s1 s2 st1 st2 st p m q s Pa Pb.
  destruct (origin_inner _ _ _ Pa) as (u & y & v & n & l & o & -> & N & L & T).
  destruct (origin_inner _ _ _ Pb) as (u' & y' & v' & n' & l' & o' & -> & N' & L' & T').
  destruct (two_inner p u y v m u' y' v' q N N') as (l1 & l2 & l3 & H).
  eapply (twice_unread _ _ _ _ _ _ _ _ _ _ _ _ H L L'). rewrite T, T'. constructor.
Qed.
End WithExt.

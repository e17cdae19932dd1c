(** * Proofs for C74 *)
From Coq Require Import List Arith NArith Lia Bool Ascii String.
From Verif Require Import Str Num Net Types Ext Show Address AttrParse Media Session Vectors SpecApi SpecDoc SpecVal SpecSeq SpecVectors.
From Verif Require Import PApi PDoc PSeq.
Import ListNotations.
Open Scope list_scope.

Section WithExt.
Context {E : Ext}.

(** ** The loops without the vector *)
Lemma session_vector_same : forall ls s, let '(s', lf, r) := session_vector s ls in parse_session_vector s ls = (s', r).
Proof.
  induction ls as [|l ls IH]; intro s; cbn [session_vector parse_session_vector]; [reflexivity|].
  destruct (l_type l); try apply IH; try reflexivity.
  destruct (session_add_attribute a s) as [s' [[]|e|]]; [apply IH|reflexivity|reflexivity].
Qed.
Lemma media_loop_same : forall ls d m, snd (media_vector_loop d m ls) = media_loop d m ls.
Proof.
  induction ls as [|l ls IH]; intros d m; cbn [media_vector_loop media_loop]; [reflexivity|].
  destruct (l_type l); try apply IH; try reflexivity.
  - destruct (media_line_attribute a m) as [m' [[]|e|]]; [apply IH|reflexivity|reflexivity].
  - destruct (m_connection m); [reflexivity|apply IH].
Qed.
Lemma media_vector_same : forall ls, snd (media_vector ls) = parse_media_vector ls.
Proof.
  intros [|l ls]; cbn [media_vector parse_media_vector]; [reflexivity|].
  destruct (l_type l); try reflexivity. apply media_loop_same.
Qed.

(** ** Session lines *)
Lemma sv_step : forall good s r, Forall session_item (line_types good) ->
  session_vector s (good ++ r) = session_vector (with_lines s (line_types good)) r.
Proof.
  induction good as [|x l IH]; intros s r H; cbn [app line_types map] in *.
  - change (with_lines s []) with (session_plus s []). rewrite session_plus_nil. reflexivity.
  - inversion H as [|? ? H2 H3]; subst. change (with_lines s (l_type x :: map l_type l)) with (session_plus s (l_type x :: map l_type l)).
    rewrite session_plus_cons by auto. cbn [session_vector].
    destruct (l_type x) eqn:K; try contradiction.
    + cbn [session_item] in H2. rewrite (proj1 (session_add_attribute_spec a s) H2), IH by auto.
      change with_lines with session_plus. f_equal. f_equal. unfold session_plus, session_with_attributes. cbn. rewrite !app_nil_r. auto.
    + rewrite IH by auto. change with_lines with session_plus. f_equal. f_equal. unfold session_plus, session_add_bandwidth. cbn. rewrite !app_nil_r. auto.
    + rewrite IH by auto. change with_lines with session_plus. f_equal. f_equal. unfold session_plus, session_set_connection. cbn. rewrite !app_nil_r. auto.
    + rewrite IH by auto. change with_lines with session_plus. f_equal. f_equal. unfold session_plus, session_set_timing. cbn. rewrite !app_nil_r. auto.
Qed.
Lemma sv_sound : forall s ls s' left r, session_reads s ls s' left r -> session_vector s ls = (s', left, r).
Proof.
  intros s ls s' left r H. destruct H as [ls H|good l rest msg H R].
  - rewrite <- (app_nil_r ls) at 1. rewrite sv_step by exact H. reflexivity.
  - rewrite sv_step by exact H. cbn [session_vector]. destruct R as [R|[[m R] ->]]; [|rewrite R; reflexivity].
    inversion R as [t T Q1|a A Q1]; subst.
    + destruct T as [(v & ->)|[(o & ->)|(n & ->)]]; reflexivity.
    + rewrite session_add_msg by exact A. reflexivity.
Qed.
Lemma sv_total : forall s ls, exists s' left r, session_reads s ls s' left r.
Proof.
  intros s ls. destruct (first_bad _ (fun x => session_item (l_type x)) ls (fun x => session_item_dec _)) as [K|(a & x & b & -> & K1 & K2)].
  - do 3 eexists. apply reads_all. unfold line_types. rewrite Forall_map. exact K.
  - assert (M : exists msg, refused (l_type x) msg).
    { destruct (session_item_msg _ K2) as [M|[msg M]]; [|exists msg; left; exact M]. eexists. right. split; [exact M|reflexivity]. }
    destruct M as [msg M]. do 3 eexists. apply (reads_until s a x b msg); [|exact M]. unfold line_types. rewrite Forall_map. exact K1.
Qed.
Lemma session_iff : forall s ls s' left r, session_vector s ls = (s', left, r) <-> session_reads s ls s' left r.
Proof.
  intros. split; [|apply sv_sound]. intro H. destruct (sv_total s ls) as (s2 & l2 & r2 & K). pose proof (sv_sound _ _ _ _ _ K) as Q.
  rewrite Q in H. injection H as <- <- <-. exact K.
Qed.
Lemma resume : forall s ls s1 rest e, session_vector s ls = (s1, rest, Err e) ->
  exists good l, ls = good ++ l :: rest /\ session_vector s1 rest = session_vector s (good ++ rest).
Proof.
  intros s ls s1 rest e H. apply session_iff in H. inversion H as [|good l r msg G R]; subst.
  exists good, l. split; [reflexivity|]. rewrite sv_step by exact G. reflexivity.
Qed.

(** ** Media lines *)
Lemma mv_step : forall good d m v, media_loop d m good = Ok v ->
  exists d' m', forall r, media_vector_loop d m (good ++ r) = media_vector_loop d' m' r /\ media_loop d m (good ++ r) = media_loop d' m' r.
Proof.
  induction good as [|l good IH]; intros d m v H; cbn [app media_vector_loop media_loop] in *; [exists d, m; auto|].
  destruct (l_type l); try discriminate H; try (exact (IH _ _ _ H)).
  - destruct (media_line_attribute a m) as [m' [[]|e|]]; try discriminate H. exact (IH _ _ _ H).
  - destruct (m_connection m); [discriminate H|]. exact (IH _ _ _ H).
Qed.
Lemma mv_stop : forall d m x e, media_loop d m [x] = Err e -> forall rest, media_vector_loop d m (x :: rest) = (rest, Err e).
Proof.
  intros d m x e H rest. cbn [media_vector_loop media_loop] in *.
  destruct (l_type x); try discriminate H; try (injection H as <-; reflexivity).
  - destruct (media_line_attribute a m) as [m' [[]|e'|]]; try discriminate H. injection H as <-. reflexivity.
  - destruct (m_connection m); [injection H as <-; reflexivity|discriminate H].
Qed.
Lemma mv_all : forall ls d m v, media_loop d m ls = Ok v -> media_vector_loop d m ls = ([], Ok v).
Proof.
  intros ls d m v H. destruct (mv_step ls d m v H) as (d' & m' & K). destruct (K []) as [K1 K2]. rewrite app_nil_r in *.
  rewrite K1. rewrite H in K2. cbn [media_loop] in K2. injection K2 as ->. reflexivity.
Qed.
Lemma vec_loop : forall secs ls, line_types ls = flat_map section_lines secs -> secs <> [] -> Forall section_ok secs ->
  exists l ls' ml, ls = l :: ls' /\ l_type l = TyMedia ml /\ media_loop [] (media_new ml) ls' = Ok (map section_media secs).
Proof.
  intros [|[ml b] secs] ls H N F; [congruence|]. cbn [flat_map section_lines fst snd app] in H. destruct ls as [|l ls]; [discriminate H|].
  unfold line_types in H. cbn [map] in H. injection H as H1 H2. exists l, ls, ml. split; [reflexivity|]. split; [exact H1|].
  apply map_eq_app in H2. destruct H2 as (l1 & l2 & -> & H2 & H3). inversion F as [|? ? [F1 F2] F3]; subst. cbn [fst snd] in *.
  rewrite media_loop_body by (auto; unfold conns; cbn; auto). rewrite (media_loop_sections secs) by auto. reflexivity.
Qed.
Lemma mv_sound : forall ls left r, media_reads ls left r -> media_vector ls = (left, r).
Proof.
  intros ls left r H. destruct H as [|l rest N|ls secs T N F|before secs m ml cur l rest msg T F M C P].
  - reflexivity.
  - cbn [media_vector]. destruct (l_type l) eqn:K; try reflexivity. destruct N. exists m. reflexivity.
  - destruct (vec_loop secs ls T N F) as (l & ls' & ml & -> & Q & L). cbn [media_vector]. rewrite Q. apply mv_all, L.
  - assert (W : line_types (before ++ m :: cur) = flat_map section_lines (secs ++ [(ml, line_types cur)])).
    { unfold line_types in *. rewrite map_app, flat_map_app, T. cbn [map flat_map section_lines fst snd app]. rewrite M, app_nil_r. reflexivity. }
    destruct (vec_loop (secs ++ [(ml, line_types cur)]) (before ++ m :: cur)) as (y & ls' & ml0 & Q & Y & L).
    { exact W. } { destruct secs; discriminate. } { apply Forall_app. split; [exact F|constructor; [exact C|constructor]]. }
    replace (before ++ m :: cur ++ l :: rest) with (y :: ls' ++ l :: rest) by (rewrite app_comm_cons, <- Q, <- app_assoc; reflexivity).
    cbn [media_vector]. rewrite Y. destruct (mv_step ls' [] (media_new ml0) _ L) as (d' & m' & K).
    rewrite (proj1 (K (l :: rest))). apply mv_stop. rewrite <- (proj2 (K [l])).
    (* the error, from the loop without the vector *)
    destruct before as [|z before].
    + injection Q as <- <-. rewrite M in Y. injection Y as <-. apply media_loop_msg; assumption.
    + injection Q as <- <-. destruct secs as [|[ml1 b1] secs]; [discriminate T|]. unfold line_types in T. cbn [map flat_map section_lines fst snd app] in T.
      injection T as T1 T2. rewrite T1 in Y. injection Y as <-. apply map_eq_app in T2. destruct T2 as (l1 & l2 & -> & T2 & T3).
      inversion F as [|? ? [F1 F2] F3]; subst. cbn [fst snd] in *.
      rewrite <- !app_assoc. rewrite media_loop_body by (auto; unfold conns; cbn; auto).
      cbn [app]. rewrite (media_loop_app_secs secs) with (ml := ml) by auto. apply media_loop_msg; assumption.
Qed.
Lemma mv_total : forall ls, exists left r, media_reads ls left r.
Proof.
  intros [|l ls]; [do 2 eexists; apply none|].
  assert (D : is_media (l_type l) \/ ~ is_media (l_type l)).
  { destruct (l_type l); try (right; intros [m K]; discriminate K). left. eexists. reflexivity. }
  destruct D as [[ml D]|D]; [|do 2 eexists; apply no_section; exact D].
  destruct (media_cases ls (media_new ml)) as [(body & secs & H1 & [H2 H3] & H4)|[(body & x & r & -> & [H2 H3] & H4)|(body & secs & y & cur & z & r & ml' & -> & [H2 H3] & (ss & H4 & H5) & H6 & [H7 H8] & H9)]].
  - do 2 eexists. apply (all_sections (l :: ls) ((ml, body) :: secs)).
    + unfold line_types. cbn [map flat_map section_lines fst snd app]. rewrite D, H1. reflexivity.
    + discriminate.
    + constructor; [split; [exact H2|exact H3]|exact H4].
  - destruct (bad_after_msg _ _ _ H4) as [msg M]. do 2 eexists. apply (until [] [] l ml body x r msg); auto. split; [exact H2|exact H3].
  - destruct (bad_after_msg _ _ _ H9) as [msg M]. do 2 eexists.
    replace (l :: body ++ secs ++ y :: cur ++ z :: r) with ((l :: body ++ secs) ++ y :: cur ++ z :: r) by (cbn [app]; rewrite <- app_assoc; reflexivity).
    apply (until (l :: body ++ secs) ((ml, map l_type body) :: ss) y ml' cur z r msg); auto.
    + unfold line_types. cbn [map flat_map section_lines fst snd app]. rewrite map_app, D, H4. reflexivity.
    + constructor; [split; [exact H2|exact H3]|exact H5].
    + split; [exact H7|exact H8].
Qed.
Lemma media_iff : forall ls left r, media_vector ls = (left, r) <-> media_reads ls left r.
Proof.
  intros. split; [|apply mv_sound]. intro H. destruct (mv_total ls) as (l2 & r2 & K). pose proof (mv_sound _ _ _ K) as Q.
  rewrite Q in H. injection H as <- <-. exact K.
Qed.
Lemma same : (forall s ls, let '(s', lf, r) := session_vector s ls in parse_session_vector s ls = (s', r)) /\
  (forall ls, snd (media_vector ls) = parse_media_vector ls).
Proof. split; [intros s ls; apply session_vector_same|exact media_vector_same]. Qed.

End WithExt.

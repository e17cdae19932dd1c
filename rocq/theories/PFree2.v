(** * Lemmas for C78: documents of the RFCs with frame rates and image attributes *)
From Coq Require Import List NArith ZArith Bool Ascii String Lia.
From Verif Require Import Str Num Net Types Ext Show AttrParse Media Session StrLemmas SpecApi SpecDoc SpecOrder
  SpecVal SpecItems SpecPrint SpecGrammar SpecRfc SpecRfc2 SpecFloat SpecFree PDoc PDoc2 PDoc3 POrder PFree PRfc8 PRfc12.
Import ListNotations.
Open Scope N_scope.
Open Scope list_scope.

Lemma crlf_read : forall ls, Forall (fun l => ~ In 10 l) ls -> lines (crlf_lines ls) = ls.
Proof.
  intros ls NL. unfold crlf_lines. rewrite <- (app_nil_r (flat_map _ ls)). change [13; 10] with crlf. rewrite lines_flat; [apply app_nil_r|].
  eapply Forall_impl; [|exact NL]. intros t H. apply not_true_iff_false. intros Q. apply H. apply contains_In. exact Q.
Qed.
Lemma crlf_size : forall A x B, byte_len (crlf_lines (A ++ B)) <= byte_len (crlf_lines (A ++ x :: B)).
Proof. intros A x B. unfold crlf_lines. rewrite !flat_map_app. cbn [flat_map]. rewrite !byte_len_app. lia. Qed.
Lemma more_media : forall lv t s s', session_more lv t s s' -> List.length (s_media s') = List.length (s_media s).
Proof.
  intros lv t s s' (_ & _ & _ & _ & _ & _ & X). destruct lv.
  - destruct X as (_ & _ & p & m & m' & q & -> & -> & _). rewrite !app_length. reflexivity.
  - destruct X as (-> & _). reflexivity.
Qed.
Lemma more_warnings : forall lv t s s', session_more lv t s s' -> s_warnings s = [] -> s_warnings s' = [].
Proof.
  intros lv t s s' (_ & _ & _ & _ & _ & (w1 & w2 & -> & ->) & _) H. apply app_eq_nil in H. destruct H as [-> ->]. reflexivity.
Qed.
Section WithExt.
Context {E : Ext}.
Hypothesis OK : ext_ok E.
Hypothesis STD : std_floats E.
Lemma image_says : forall t, image_line t -> exists a, line_is (eq (TyAttribute a)) t /\
  (sdp_name a = "framerate" \/ sdp_name a = "imageattr")%string.
Proof.
  intros t [G|[G Z]].
  - destruct (framerate_taken STD t 0 G) as (x & K). exists (AFrameRate x). split; [|left; reflexivity].
    split; [exact (blank_not _ _ _ K)|]. eexists. split; [exact K | reflexivity].
  - destruct (imageattr_taken STD t 0 Z G) as (x & K). exists (AImageAttr x). split; [|right; reflexivity].
    split; [exact (blank_not _ _ _ K)|]. eexists. split; [exact K | reflexivity].
Qed.
Lemma media_kind : forall m, of_kind ["m"]%string m -> line_is_media m.
Proof.
  intros m H. destruct (kind_taken OK _ _ H 0%nat) as (ty & K & N). split; [exact (blank_not _ _ _ K)|]. eexists. split; [exact K|].
  cbn [l_type]. destruct ty as [a|b|c|md|o|x|tm|v]; try discriminate N; [destruct a; discriminate N | exists md; reflexivity].
Qed.
Lemma image_documents : forall ls ls' n strict, rfc_document ls n -> with_images ls ls' ->
  Forall (fun l => ~ In 10 l) ls' -> 51 <= byte_len (crlf_lines ls) ->
  exists s, parse_sdp (crlf_lines ls') strict = Ok s /\ s_warnings s = [] /\ List.length (s_media s) = n.
Proof.
  intros ls ls' n strict D W NL Sz.
  enough (H : (exists s, parse_sdp (crlf_lines ls') strict = Ok s /\ s_warnings s = [] /\ List.length (s_media s) = n) /\
              51 <= byte_len (crlf_lines ls')) by exact (proj1 H).
  induction W as [|A t B m W IH I M Im].
  - split; [exact (documents OK ls n strict D NL Sz) | exact Sz].
  - assert (NL' : Forall (fun l => ~ In 10 l) (A ++ B)).
    { apply Forall_app in NL. destruct NL as [N1 N2]. inversion N2; subst. apply Forall_app. split; assumption. }
    destruct (IH NL') as [(s & K & W0 & L) Sz']. pose proof (N.le_trans _ _ _ Sz' (crlf_size A t B)) as Sz2. split; [|exact Sz2].
    destruct (image_says t Im) as (a & Sa & Na).
    destruct (line_added _ _ A t B _ true strict s (crlf_read _ NL') (crlf_read _ NL) Sa) as (s' & K' & Mo).
    + cbn [outside]. destruct Na as [->| ->]; intro J; cbn in J; intuition discriminate.
    + apply Exists_exists. exists m. split; [exact I | exact (media_kind m M)].
    + cbn [item_at media_item]. left. destruct Na as [->| ->]; vm_compute; tauto.
    + exact Sz2.
    + exact K.
    + exists s'. split; [exact K'|]. split; [exact (more_warnings _ _ _ _ Mo W0)|]. rewrite (more_media _ _ _ _ Mo). exact L.
Qed.
End WithExt.

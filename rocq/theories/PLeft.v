(** * Proofs: what masking leaves readable (C92) *)
From Coq Require Import List Arith NArith ZArith Lia Bool Ascii String.
From Coq Require Import ZifyBool ZifyNat ZifyN.
From Verif Require Import Str Num Net Types Ext Show AttrParse Media Session Anon SpecApi SpecDoc SpecVal SpecItems SpecPrint
  SpecAnon SpecMask SpecShape.
From Verif Require Import StrLemmas NumLemmas PPrint PPrint2 PPrint10 PAnon PAnon2 PAnon3 PAnon4 PMask PRfc26 PRfc27 PMask3 PShape.
Import ListNotations.
Open Scope N_scope.
Open Scope list_scope.

Lemma Forall2_left : forall {A B} (R : A -> B -> Prop) l l' x, Forall2 R l l' -> In x l -> exists y, In y l' /\ R x y.
Proof.
  intros A B R l l' x F. induction F as [|a b l l' H F IH]; intro I; [destruct I|]. destruct I as [<-|I]; [exists b; split; [left; reflexivity|exact H]|].
  destruct (IH I) as (y & Y & K). exists y. split; [right; exact Y|exact K].
Qed.
Section WithExt.
Context {E : Ext}.
Context (X : ext_ok E).
Lemma masked_lines_are : forall sdp b s h, parse_sdp sdp b = Ok s ->
  lines (show_session (mask_document s (after anon_new h))) = session_lines (mask_document s (after anon_new h)).
Proof.
  intros sdp b s h P. exact (proj1 (proj2 (session_lines_ok X _ (document_clean s h (parsed_clean X _ _ _ P))))).
Qed.
Lemma unchanged : forall sdp b s h x, parse_sdp sdp b = Ok s -> In x (lines (show_session s)) ->
  (forall k y, In k masked_kinds -> x <> k ++ y) -> In x (lines (show_session (mask_document s (after anon_new h)))).
Proof.
  intros sdp b s h x P I N. destruct (Forall2_left _ _ _ x (parsed_shape X sdp b s h P) I) as (y & Y & [->|(k & u & v & K & -> & _)]); [exact Y|].
  destruct (N k u K eq_refl).
Qed.
Lemma in_media : forall s h m, In m (s_media s) -> exists h', incl (media_lines (fst (mask_media m (after anon_new h'))))
  (session_lines (mask_document s (after anon_new h))).
Proof.
  intros s h m M. unfold mask_document. destruct (session_masked s h) as (h' & o & c & ->).
  destruct (medias_have _ (h' ++ map VAttr (s_attribute s)) m M) as (h2 & H). exists h2. intros x I. unfold session_lines. cbn [s_media].
  do 3 right. do 4 (apply in_or_app; right). apply in_flat_map. eexists. split; [exact H|exact I].
Qed.
Lemma section_connection : forall sdp b s h m c, parse_sdp sdp b = Ok s -> In m (s_media s) -> m_connection m = Some c ->
  In (lit "c=" ++ show_connection c) (lines (show_session (mask_document s (after anon_new h)))).
Proof.
  intros sdp b s h m c P M C. rewrite (masked_lines_are _ _ _ h P). destruct (in_media s h m M) as (h' & I). apply I.
  unfold mask_media. destruct (mask_attrs _ _) as (l & a). cbn [fst]. unfold media_lines. cbn [m_media m_bandwidth m_connection m_attribute].
  right. apply in_or_app. right. apply in_or_app. left. rewrite C. left. reflexivity.
Qed.
Lemma candidate_shown : forall c u, ufrag c = Some u -> exists p q,
  show_attr (ACandidate c) = lit "candidate:" ++ p ++ lit " ufrag " ++ u ++ q.
Proof.
  intros c u U. cbn [show_attr]. unfold attr_to_string.
  assert (K : exists p q, show_candidate c = p ++ lit " ufrag " ++ u ++ q).
  { unfold show_candidate. rewrite U.
    exists (foundation c ++ sp ++ show_N (component c) ++ sp ++ show_transport (transport c) ++ sp ++
      show_N (priority c) ++ sp ++ show_address (cand_address c) ++ sp ++ show_N (cand_port c) ++
      lit " typ " ++ show_cand_type (c_type c) ++
      show_opt (lit " raddr ") show_address [] (raddr c) ++
      show_opt (lit " rport ") show_N [] (rport c) ++
      show_opt (lit " tcptype ") show_tcp_type [] (tcp_type c) ++
      show_opt (lit " generation ") show_N [] (generation c)).
    exists (show_opt (lit " network-cost ") show_N [] (networkcost c) ++
      flat_map (fun nv => sp ++ fst nv ++ sp ++ snd nv) (unknown_extensions c)).
    unfold show_opt at 5. rewrite <- !app_assoc. reflexivity. }
  destruct K as (p & q & ->). exists p, q. destruct p; reflexivity.
Qed.
Lemma candidate_kept : forall c h, exists c', fst (mask_attr (ACandidate c) (after anon_new h)) = ACandidate c' /\ ufrag c' = ufrag c.
Proof.
  intros c h. cbn [mask_attr]. unfold mask_candidate. destruct (mask_address _ _) as (ad & a1). destruct (mask_port _ _) as (po & a2).
  destruct (match raddr c with Some _ => _ | None => _ end) as (ra & a3). destruct (match rport c with Some _ => _ | None => _ end) as (rp & a4).
  eexists. split; reflexivity.
Qed.
Lemma candidate_user : forall sdp b s h m c u, parse_sdp sdp b = Ok s -> In m (s_media s) -> In (ACandidate c) (m_attribute m) -> ufrag c = Some u ->
  exists p q, In (lit "a=candidate:" ++ p ++ lit " ufrag " ++ u ++ q) (lines (show_session (mask_document s (after anon_new h)))).
Proof.
  intros sdp b s h m c u P M A U. rewrite (masked_lines_are _ _ _ h P). destruct (in_media s h m M) as (h' & I).
  destruct (attrs_have _ h' _ A) as (h2 & H). destruct (candidate_kept c h2) as (c' & Q & U'). rewrite Q in H. rewrite U in U'.
  destruct (candidate_shown c' u U') as (p & q & K). exists p, q. apply I.
  unfold mask_media. destruct (mask_attrs (m_attribute m) (after anon_new h')) as (l & a). cbn [fst] in *. unfold media_lines. cbn [m_media m_bandwidth m_connection m_attribute].
  right. apply in_or_app. right. apply in_or_app. right. assert (N : show_attr (ACandidate c') <> []) by (rewrite K; discriminate).
  pose proof (attribute_printed l _ H N) as J. unfold printed_line in J. cbn [item_text] in J. rewrite K in J. exact J.
Qed.
End WithExt.

(** * C78: lines that no rule about the whole session is about can be added and taken out *)
From Coq Require Import List NArith ZArith Bool Ascii String.
From Verif Require Import Str Num Net Types Ext Show Session SpecApi SpecDoc SpecOrder SpecVal SpecPrint SpecIp
  SpecGrammar SpecRfc SpecRfc2 SpecFloat SpecFree PFree PFree2 Ext0 PExt0 PFloat4 PropRfc PropRfc2.
Import ListNotations.
Open Scope N_scope.
Open Scope list_scope.

(** A line of a bandwidth or of an attribute that is not rtcp-mux-only, rid,
    simulcast or extmap can be added to an accepted text, at the session's level or
    in a media section, wherever such a line belongs.  The session has one item more. *)
Theorem C78_added : forall (E : Ext) sdp sdp' A x B t media_level b s,
  lines sdp = A ++ B -> lines sdp' = A ++ x :: B -> line_is (eq t) x -> outside break_added t ->
  level_at media_level A -> item_at media_level t -> 51 <= byte_len sdp' -> parse_sdp sdp b = Ok s ->
  exists s', parse_sdp sdp' b = Ok s' /\ session_more media_level t s s'.
Proof. exact @line_added. Qed.

(** A line of a bandwidth or of an attribute that is not rtcp-mux, rid or simulcast
    can be taken out of an accepted text.  The session has one item less. *)
Theorem C78_removed : forall (E : Ext) sdp sdp' A x B t b s',
  lines sdp = A ++ B -> lines sdp' = A ++ x :: B -> line_is (eq t) x -> outside break_removed t ->
  51 <= byte_len sdp -> parse_sdp sdp' b = Ok s' ->
  exists media_level s, parse_sdp sdp b = Ok s /\ session_more media_level t s s' /\ level_at media_level A /\ item_at media_level t.
Proof. exact @line_removed. Qed.

(** So a document of the RFCs (C62) is accepted with any lines of frame rates and
    image attributes (C75) after its first m= line. *)
Theorem C78_rfc_documents : forall E : Ext, ext_ok E -> std_floats E -> forall ls ls' n strict,
  rfc_document ls n -> with_images ls ls' -> Forall (fun l => ~ In 10 l) ls' -> 51 <= byte_len (crlf_lines ls) ->
  exists s, parse_sdp (crlf_lines ls') strict = Ok s /\ s_warnings s = [] /\ List.length (s_media s) = n.
Proof. exact @image_documents. Qed.

(** ** False of the code: for the other attributes *)
Definition start : list str := [lit "v=0"; lit "o=- 1 2 IN IP6 ::1"; lit "s=-"; lit "c=IN IP6 ::1"; lit "t=0 0"].
Definition video : list str := [lit "m=video 9 RTP/AVP 96"].
Ltac theline := split; [let K := fresh in intro K; apply Forall_inv in K; discriminate K
  | eexists; split; [vm_compute; reflexivity | first [eexists; reflexivity | vm_compute; reflexivity]]].
Ltac themedia := first [apply Exists_cons_hd; theline | apply Exists_cons_tl; themedia].
Ltac refused := intro E; split; [theline|]; split; [vm_compute; reflexivity|]; split; [themedia|]; split; [left; vm_compute; tauto|];
  eexists; eexists; split; vm_compute; reflexivity.
Theorem C78_added_refuted : forall n, In n break_added -> exists A x B a, forall E : Ext,
  line_is (eq (TyAttribute a)) x /\ sdp_name a = n /\ level_at true A /\ item_at true (TyAttribute a) /\
  exists s e, parse_sdp (crlf_lines (A ++ B)) true = Ok s /\ parse_sdp (crlf_lines (A ++ x :: B)) true = Err e.
Proof.
  intros n H. cbn in H. destruct H as [<-|[<-|[<-|[<-|[]]]]].
  - exists (start ++ video), (lit "a=rtcp-mux-only"), [lit "a=sendonly"]. eexists. refused.
  - exists (start ++ video), (lit "a=rid:1 send pt=97"), [lit "a=sendonly"]. eexists. refused.
  - exists (start ++ video), (lit "a=simulcast:send 1"), [lit "a=rid:1 recv"]. eexists. refused.
  - exists (start ++ lit "a=extmap:1 uri:a" :: video), (lit "a=extmap:2 uri:b"), []. eexists. refused.
Qed.
Theorem C78_removed_refuted : forall n, In n break_removed -> exists A x B a, forall E : Ext,
  line_is (eq (TyAttribute a)) x /\ sdp_name a = n /\ level_at true A /\ item_at true (TyAttribute a) /\
  exists s e, parse_sdp (crlf_lines (A ++ x :: B)) true = Ok s /\ parse_sdp (crlf_lines (A ++ B)) true = Err e.
Proof.
  intros n H. cbn in H. destruct H as [<-|[<-|[<-|[]]]].
  - exists (start ++ video), (lit "a=rtcp-mux"), [lit "a=rtcp-mux-only"]. eexists. refused.
  - exists (start ++ video), (lit "a=rid:1 send"), [lit "a=simulcast:send 1"]. eexists. refused.
  - exists (start ++ video ++ [lit "a=rid:1 send"]), (lit "a=simulcast:send 1"), [lit "a=simulcast:send 2"]. eexists. refused.
Qed.
(** Nor can any other line be added: a second c= line of a media section. *)
Theorem C78_second_connection_refuted : exists A x B, forall E : Ext,
  line_is (fun t => exists c, t = TyConnection c) x /\ level_at true A /\
  exists s e, parse_sdp (crlf_lines (A ++ B)) true = Ok s /\ parse_sdp (crlf_lines (A ++ x :: B)) true = Err e.
Proof.
  exists (start ++ video), (lit "c=IN IP6 ::2"), [lit "c=IN IP6 ::1"]. intro E.
  split; [theline|]. split; [themedia|]. eexists. eexists. split; vm_compute; reflexivity.
Qed.

(** ** The theorems apply *)
Definition after : list str := [lit "a=unheard-of:x"; lit "m=audio 9 RTP/AVP 0"; lit "a=recvonly"].
Example C78_example : forall E : Ext,
  exists s s', parse_sdp (crlf_lines ((start ++ video) ++ after)) false = Ok s /\
    parse_sdp (crlf_lines ((start ++ video) ++ lit "a=sendonly" :: after)) false = Ok s' /\
    session_more true (TyAttribute ASendonly) s s' /\ s_warnings s <> s_warnings s' /\
    map m_attribute (s_media s) = [[]; [ARecvonly]] /\ map m_attribute (s_media s') = [[ASendonly]; [ARecvonly]].
Proof.
  intro E.
  eassert (H : parse_sdp (crlf_lines ((start ++ video) ++ after)) false = Ok _) by (vm_compute; reflexivity).
  eassert (H2 : parse_sdp (crlf_lines ((start ++ video) ++ lit "a=sendonly" :: after)) false = Ok _) by (vm_compute; reflexivity).
  destruct (C78_added E (crlf_lines ((start ++ video) ++ after)) (crlf_lines ((start ++ video) ++ lit "a=sendonly" :: after))
    (start ++ video) (lit "a=sendonly") after (TyAttribute ASendonly) true false _
    ltac:(vm_compute; reflexivity) ltac:(vm_compute; reflexivity) ltac:(theline)
    ltac:(vm_compute; intuition discriminate) ltac:(themedia) ltac:(left; vm_compute; tauto) ltac:(vm_compute; discriminate) H) as (s' & K & M).
  eexists. exists s'. split; [exact H|]. split; [exact K|]. split; [exact M|]. rewrite H2 in K. injection K as <-.
  split; [vm_compute; discriminate|]. split; vm_compute; reflexivity.
Qed.
(** A line at the session's level taken out again. *)
Example C78_example_removed : forall E : Ext,
  exists s s', parse_sdp (crlf_lines (start ++ lit "b=AS:64" :: video)) true = Ok s' /\
    parse_sdp (crlf_lines (start ++ video)) true = Ok s /\ session_more false (TyBandwidth (BwAs 64)) s s'.
Proof.
  intro E. eassert (H : parse_sdp (crlf_lines (start ++ lit "b=AS:64" :: video)) true = Ok _) by (vm_compute; reflexivity).
  destruct (C78_removed E (crlf_lines (start ++ video)) (crlf_lines (start ++ lit "b=AS:64" :: video))
    start (lit "b=AS:64") video (TyBandwidth (BwAs 64)) true _
    ltac:(vm_compute; reflexivity) ltac:(vm_compute; reflexivity) ltac:(theline) I ltac:(vm_compute; discriminate) H) as (lv & s & K & M & L & _).
  exists s. eexists. split; [exact H|]. split; [exact K|]. destruct lv; [|exact M]. exfalso.
  cbn [level_at in_media start] in L. unfold in_media in L.
  repeat (apply Exists_cons in L; destruct L as [(_ & l & Q & m & T)|L]; [vm_compute in Q; injection Q as <-; discriminate T|]). inversion L.
Qed.
(** The document of C62 with the frame rate and the image attribute of C75 at its end. *)
Definition an_imageattr : str :=
  lit "a=imageattr:97 send [x=[480:16:800],y=[320:16:640],par=[1.2-1.3],q=0.6] [x=[176,208],y=144,sar=[1.1,1.3],foo=bar] recv *".
Definition images : list str := (ex_document ++ [lit "a=framerate:29.97"]) ++ an_imageattr :: [].
Example C78_example_images : with_images (E := Ext0) ex_document images /\ Forall (fun l => ~ In 10 l) images /\
  51 <= byte_len (crlf_lines ex_document) /\
  exists s, parse_sdp (E := Ext0) (crlf_lines images) true = Ok s /\ s_warnings s = [] /\ List.length (s_media s) = 1%nat.
Proof.
  assert (W : with_images (E := Ext0) ex_document images).
  { assert (HM : exists m, In m ex_document /\ of_kind (E := Ext0) ["m"]%string m).
    { destruct (C62_example_document Ext0) as ((v & o & sn & head & secs & -> & _ & _ & _ & _ & _ & S & _ & _ & L) & _).
      destruct secs as [|sec secs]; [discriminate L|]. apply Forall_inv in S. destruct S as (m & a & c & b & -> & M & _).
      exists m. split; [|exact M]. do 3 right. apply in_app_iff. right. left. reflexivity. }
    destruct HM as (m & I & M). apply images_one with (m := m).
    - rewrite app_nil_r. apply images_one with (m := m); [rewrite app_nil_r; apply images_none | exact I | exact M|].
      left. exact (proj1 C75_example_framerate).
    - apply in_app_iff. left. exact I.
    - exact M.
    - right. split; [exact (proj1 (C75_example_imageattr _ eq_refl)) | vm_compute; reflexivity]. }
  assert (F : Forall (fun l => ~ In 10 l) images) by (repeat (constructor; [cbv; intuition discriminate|]); constructor).
  assert (Z : 51 <= byte_len (crlf_lines ex_document)) by (vm_compute; discriminate).
  split; [exact W|]. split; [exact F|]. split; [exact Z|].
  exact (C78_rfc_documents Ext0 ext0_ok ext0_std _ _ 1%nat true (proj1 (C62_example_document Ext0)) W F Z).
Qed.
Print Assumptions C78_added.
Print Assumptions C78_removed.
Print Assumptions C78_rfc_documents.
Print Assumptions C78_added_refuted.
Print Assumptions C78_removed_refuted.
Print Assumptions C78_second_connection_refuted.

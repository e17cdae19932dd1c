(** * Building texts of the grammar, and lines of the RFCs that are refused (C62) *)
From Coq Require Import List Arith NArith ZArith Lia Bool Ascii String.
From Coq Require Import ZifyBool ZifyNat ZifyN.
From Verif Require Import Str Num Net Types Ext Show Address AttrParse Media Session SpecApi SpecDoc SpecVal SpecItems
  SpecPrint SpecIp SpecGrammar.
From Verif Require Import StrLemmas NetLemmas PIp PIp2 PDoc PDoc2.
From Verif Require Import SpecRfc PRfc7 PRfc8.
Import ListNotations.
Open Scope N_scope.
Open Scope list_scope.

Lemma g_cats : forall l ps, Forall2 gen l ps -> gen (cats l) (List.concat ps).
Proof.
  intros l ps H. induction H as [|a p l ps G H IH]; [exact (gen_lit "")|]. cbn [cats List.concat].
  destruct H; [cbn [List.concat]; rewrite app_nil_r; exact G|]. apply gen_cat; [exact G|exact IH].
Qed.
Lemma g_many : forall P t, Forall P t -> gen (Many (Chr P)) t.
Proof. intros P t H. induction H as [|c t C H IH]; [constructor|]. exact (gen_many_cons _ [c] t (gen_chr P c C) IH). Qed.
Lemma g_many1 : forall P t, t <> [] -> Forall P t -> gen (many1 (Chr P)) t.
Proof.
  intros P [|c t] N H; [congruence|]. inversion H; subst. exact (gen_cat _ _ [c] t (gen_chr P c ltac:(assumption)) (g_many P t ltac:(assumption))).
Qed.
Lemma g_any : forall t, gen (Many any) t.
Proof. intros t. apply g_many. apply Forall_forall. intros; exact I. Qed.
Lemma g_nocase : forall w t, recased t (of_string w) -> gen (nocase w) t.
Proof. intros w t H. apply gen_such; [apply g_any|exact H]. Qed.
Lemma g_at_most : forall m t, t <> [] -> Forall (fun c => 48 <= c <= 57) t -> dec_value t <= m -> gen (at_most m) t.
Proof. intros m t N F L. apply gen_such; [apply g_many1; assumption|exact L]. Qed.
Lemma g_row : forall a b P t, Forall P t -> (a <= List.length t <= b)%nat -> gen (row a b P) t.
Proof. intros a b P t F L. apply gen_such; [apply g_many; exact F|exact L]. Qed.
Lemma g_word1 : forall s a t, gen a t -> gen (many1 (Cat (Lit s) a)) (of_string s ++ t).
Proof. intros s a t G. rewrite <- (app_nil_r (of_string s ++ t)). apply gen_cat; [apply gen_cat; [constructor|exact G]|constructor]. Qed.
Lemma g_opt : forall a t, gen a t -> gen (opt a) t.
Proof. intros a t G. apply gen_or_right. exact G. Qed.
Lemma g_none : forall a, gen (opt a) [].
Proof. intros a. apply gen_or_left. exact (gen_lit ""). Qed.
Lemma g_one : forall s a t, gen a t -> gen (list_of s a) t.
Proof. intros s a t G. rewrite <- (app_nil_r t). apply gen_cat; [exact G|constructor]. Qed.
Lemma g_ip6_text : forall t n, parse_ip t = Some (V6 n) -> gen ip6 t.
Proof. intros t n H. apply gen_such; [apply g_any|]. exists n. apply ip6_texts. exact H. Qed.
Lemma g_ip4_text : forall t n, parse_ip t = Some (V4 n) -> gen ip4 t.
Proof. intros t n H. apply gen_such; [apply g_any|]. exists n. apply ip4_texts. exact H. Qed.

Lemma g_times : forall a n ps, List.length ps = n -> Forall (gen a) ps -> gen (times n a) (List.concat ps).
Proof.
  intros a n ps <- F. induction F as [|p ps G F IH]; [exact (gen_lit "")|]. cbn [List.length times List.concat]. apply gen_cat; assumption.
Qed.
Lemma g_octets : forall n, gen (octets (S n)) (lit "00" ++ List.concat (repeat (lit ":00") n)).
Proof.
  assert (U : gen uhex [48]) by (apply gen_chr; lia). assert (UU : gen (Cat uhex uhex) (lit "00")) by exact (gen_cat _ _ [48] [48] U U).
  intros n. cbn [octets]. apply gen_cat; [exact UU|]. apply g_times; [apply repeat_length|].
  apply Forall_forall. intros p H. apply repeat_spec in H. subst p. exact (gen_cat _ _ (lit ":") (lit "00") (gen_lit ":") UU).
Qed.
Ltac chars := repeat (apply Forall_cons; [solve [cbv; intuition (discriminate || congruence)]|]); apply Forall_nil.
Ltac leaf := solve
  [ apply gen_lit
  | apply g_at_most; [discriminate|chars|vm_compute; discriminate]
  | apply g_many1; [discriminate|chars]
  | apply g_row; [chars|cbn; lia]
  | apply g_none
  | apply gen_many_nil
  | eapply g_ip6_text; vm_compute; reflexivity
  | eapply g_ip4_text; vm_compute; reflexivity
  | apply g_nocase; repeat constructor ].
Ltac ors := first [leaf | apply gen_or_left; ors | apply gen_or_right; ors].
Ltac by_pieces ps := match goal with |- gen _ ?t => change t with (List.concat ps) end; apply g_cats;
  repeat (apply Forall2_cons; [try ors|]); [..|apply Forall2_nil].

Section WithExt.
Context {E : Ext}.
Definition refused (t : str) : Prop := forall n l, parse_sdp_line t n <> Ok l.
Definition okb (r : res perr sdp_line) : bool := match r with Ok _ => true | _ => false end.
Lemma refused_b : forall t, (forall n, okb (parse_sdp_line t n) = false) -> refused t.
Proof. intros t H n l Q. specialize (H n). rewrite Q in H. discriminate. Qed.
Lemma beyond_refused : forall r, In r rfc_beyond -> exists t, gen r t /\ refused t.
Proof.
  intros r M. unfold rfc_beyond in M. cbn [In] in M.
  repeat match type of M with _ \/ _ => destruct M as [M|M] end; [subst r..|destruct M].
  - exists (lit "a=extmap:1/inactive urn:x"). split; [|apply refused_b; intros n; vm_compute; reflexivity].
    by_pieces [lit "a=extmap:"; lit "1"; lit "/"; lit "inactive"; lit " "; lit "urn:x"].
  - exists (lit "a=fingerprint:SHA-1 00:00:00:00:00:00:00:00:00:00:00:00:00:00:00:00:00:00:00:00"). split; [|apply refused_b; intros n; vm_compute; reflexivity].
    by_pieces [lit "a=fingerprint:"; lit "SHA-1"; lit " "; lit "00:00:00:00:00:00:00:00:00:00:00:00:00:00:00:00:00:00:00:00"]. exact (g_octets 19).
  - exists (lit "a=rtcp-fb:98 ack"). split; [|apply refused_b; intros n; vm_compute; reflexivity].
    by_pieces [lit "a=rtcp-fb:"; lit "98"; lit " "; lit "ack"].
  - exists (lit "a=rtcp-fb:98 NACK"). split; [|apply refused_b; intros n; vm_compute; reflexivity].
    by_pieces [lit "a=rtcp-fb:"; lit "98"; lit " "; lit "NACK"].
  - exists (lit "a=rtcp-fb:98 nack x"). split; [|apply refused_b; intros n; vm_compute; reflexivity].
    by_pieces [lit "a=rtcp-fb:"; lit "98"; lit " nack "; lit "x"].
  - exists (lit "a=rid:1 send max-width"). split; [|apply refused_b; intros n; vm_compute; reflexivity].
    by_pieces [lit "a=rid:"; lit "1"; lit " "; lit "send"; lit " "; lit "max-width"].
  - exists (lit "a=ssrc-group:FID"). split; [|apply refused_b; intros n; vm_compute; reflexivity].
    by_pieces [lit "a=ssrc-group:"; lit "FID"; lit ""].
  - exists (lit "a=ptime:2.5"). split; [|apply refused_b; intros n; vm_compute; reflexivity].
    by_pieces [lit "a=ptime:"; lit "2"; lit ".5"]. apply g_opt. apply (gen_cat (Lit ".") (many1 digit) (lit ".") (lit "5")); leaf.
  - exists (lit "c=IN IP6 ::1/256"). split; [|apply refused_b; intros n; vm_compute; reflexivity].
    by_pieces [lit "c=IN IP6 "; lit "::1"; lit "/"; lit "256"].
  - exists (lit "a=candidate:1 1 SCTP 1 ::1 9 typ host"). split; [|apply refused_b; intros n; vm_compute; reflexivity].
    by_pieces [lit "a=candidate:"; lit "1"; lit " "; lit "1"; lit " "; lit "SCTP"; lit " "; lit "1"; lit " "; lit "::1"; lit " "; lit "9"; lit " typ host"].
  - exists (lit "a=candidate:1 1 UDP 1 ::1 9 typ relayed"). split; [|apply refused_b; intros n; vm_compute; reflexivity].
    by_pieces [lit "a=candidate:"; lit "1"; lit " "; lit "1"; lit " UDP "; lit "1"; lit " "; lit "::1"; lit " "; lit "9"; lit " typ "; lit "relayed"].
  - exists (lit "a=group:CS"). split; [|apply refused_b; intros n; vm_compute; reflexivity].
    by_pieces [lit "a=group:"; lit "CS"; lit ""].
  - exists (lit "m=text 9 RTP/AVP 96"). split; [|apply refused_b; intros n; vm_compute; reflexivity].
    by_pieces [lit "m="; lit "text"; lit " "; lit "9"; lit " "; lit "RTP/AVP"; lit " 96"].
    { rewrite <- (app_nil_r (lit "9")). apply gen_cat; [leaf|apply g_none]. }
    apply (g_word1 " " payload (lit "96")). apply gen_such; [leaf|]. change (payload_listed 96); unfold payload_listed; lia.
  - exists (lit "m=audio 9 udp 96"). split; [|apply refused_b; intros n; vm_compute; reflexivity].
    by_pieces [lit "m=audio "; lit "9"; lit " "; lit "udp"; lit " 96"].
    { rewrite <- (app_nil_r (lit "9")). apply gen_cat; [leaf|apply g_none]. }
    { apply g_one. leaf. }
    apply (g_word1 " " payload (lit "96")). apply gen_such; [leaf|]. change (payload_listed 96); unfold payload_listed; lia.
  - exists (lit "i=x"). split; [apply (gen_cat (Lit "i=") byte_string (lit "i=") (lit "x")); leaf|].
    apply refused_b; intros n; vm_compute; reflexivity.
  - exists (lit "a=x"). split; [apply (gen_cat (Lit "a=") token (lit "a=") (lit "x")); leaf|].
    apply refused_b; intros n; vm_compute; reflexivity.
Qed.

(** ** Texts of any of these lines *)
Lemma scans : ext_ok E -> forall ls, Forall (fun t => blank t \/ exists K, of_kind K t) ls -> forall n, exists L, Scan n ls L [] [].
Proof.
  intros OK ls H. induction H as [|t ls B H IH]; intros n; [exists []; constructor|]. destruct (IH (S n)) as [L S].
  destruct (blank_dec t) as [Y|Y]; [exists L; apply Scan_blank; assumption|]. destruct B as [B|[K B]]; [contradiction|].
  destruct (kind_fits OK K t B n) as (ty & P & _). eexists. eapply Scan_ok; eassumption.
Qed.
Lemma only_sequence : ext_ok E -> forall sdp strict, 51 <= byte_len sdp -> Forall (fun t => blank t \/ exists K, of_kind K t) (lines sdp) ->
  (exists s, parse_sdp sdp strict = Ok s /\ s_warnings s = []) \/ exists m n, parse_sdp sdp strict = Err (PSequence m n).
Proof.
  intros OK sdp strict B H. destruct (scans OK _ H 0%nat) as [L S]. rewrite (parse_scan _ strict _ _ _ B S). unfold finish.
  replace (if strict then _ else _) with (s <- parse_sdp_vector L ;; Ok (session_with_warnings [] s)) by (destruct strict; reflexivity).
  destruct (parse_sdp_vector L) as [s|e|] eqn:V; cbn [bind].
  - left. exists (session_with_warnings [] s). split; reflexivity.
  - right. apply vector_err in V. destruct V as (m & n & ->). exists m, n. reflexivity.
  - destruct (PPanic.vector_np L V).
Qed.
End WithExt.

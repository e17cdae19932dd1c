(** * Lines of the RFCs are printed as lines of the RFCs (C80): addresses, fingerprints, feedback, simulcast *)
From Coq Require Import List Arith NArith ZArith Lia Bool Ascii String.
From Coq Require Import ZifyBool ZifyNat ZifyN.
From Verif Require Import Str Num Net Types Ext Show Address AttrParse Media Session SpecApi SpecDoc SpecVal SpecItems
  SpecPrint SpecIp SpecGrammar.
From Verif Require Import StrLemmas NumLemmas NetLemmas PVal PVal2 PVal8 PVal9 PVal10 PVal11 PPrint PPrint2 PPrint3 PPrint4
  PPrint9 PPrint11 PIp PIp2 PDoc3 PExt0 PSettle PGram PGram2.
From Verif Require Import SpecRfc PRfc PRfc2 PRfc3 PRfc4 PRfc9 PRfc16 PRfc17.
Import ListNotations.
Open Scope N_scope.
Open Scope list_scope.

Ltac starting := let v := fresh "v" in let H := fresh "H" in intros v H; cbn [fst snd] in H |- *.
Ltac same t := match goal with |- again _ _ ?u => replace u with t by flat end.

Section WithExt.
Context {E : Ext}.
(** ** Addresses *)
Hypothesis OK : ext_ok E.
Lemma domain_printed : forall t d, reads_address t (Fqdn d) -> gen fqdn d.
Proof.
  intros t d [(_ & i & _ & Q)|(_ & h & P & Q)]; [discriminate Q|]. destruct h as [x|x|x]; try discriminate Q. injection Q as ->.
  destruct (host_domain_chars _ OK _ _ P) as [N F]. apply gen_such.
  - apply PRfc9.g_many1; [exact N|]. apply Forall_forall. intros c C. rewrite forallb_forall in F. specialize (F c C).
    unfold domain_char in F. apply andb_prop in F. destruct F as [F1 F2]. split; [unfold vchar; lia|].
    split; intros ->; vm_compute in F2; discriminate F2.
  - exists x. exact (host_domain_stable _ OK _ _ P).
Qed.
Lemma ip4_printed : forall t n, reads_address t (Ip (V4 n)) -> gen ip4 (show_ip4 n).
Proof.
  intros t n H. apply (g_ip4_text _ n), parse_show_ip4. destruct H as [(_ & i & P & Q)|(_ & h & P & Q)].
  - injection Q as <-. apply ip_texts in P. apply texts_are_values in P. cbn in P. unfold u32_max. lia.
  - destruct h as [x|x|x]; try discriminate Q. injection Q as ->. exact (host_ipv4_range _ OK _ _ P).
Qed.
Lemma ip6_printed : forall t n, reads_address t (Ip (V6 n)) -> gen ip6 (show_ip6 n).
Proof.
  intros t n H. apply (g_ip6_text _ n), parse_show_ip6. destruct H as [(_ & i & P & Q)|(_ & h & P & Q)].
  - injection Q as <-. apply ip_texts in P. apply texts_are_values in P. cbn in P. unfold u128_max. lia.
  - destruct h as [x|x|x]; try discriminate Q. injection Q as ->. exact (host_ipv6_range _ OK _ _ P).
Qed.
Lemma address_printed : forall t a, reads_address t a -> gen address_rule (show_address a).
Proof.
  intros t [d|[n|n]] H; unfold address_rule; cbn [alt show_address show_ip].
  - apply gen_or_right, gen_or_right. exact (domain_printed _ _ H).
  - apply gen_or_left. exact (ip4_printed _ _ H).
  - apply gen_or_right, gen_or_left. exact (ip6_printed _ _ H).
Qed.
Lemma typed_printed : forall k t a, reads_typed k t a -> gen typed (show_typed_address a).
Proof.
  intros k t a [(d & R & ->)|[(-> & n & R & ->)|(-> & n & R & ->)]]; unfold typed, show_typed_address; cbn [typed_addr_type ip_addr_type].
  - destruct k; [apply gen_or_left|apply gen_or_right].
    + parts [of_string "IN"; lit " "; of_string "IP4"; lit " "; d]; [apply g_nocase_itself|apply g_nocase_itself| |flat].
      apply gen_or_right. exact (domain_printed _ _ R).
    + parts [of_string "IN"; lit " "; of_string "IP6"; lit " "; d]; [apply g_nocase_itself|apply g_nocase_itself| |flat].
      apply gen_or_right. exact (domain_printed _ _ R).
  - apply gen_or_left. parts [of_string "IN"; lit " "; of_string "IP4"; lit " "; show_ip4 n]; [apply g_nocase_itself|apply g_nocase_itself| |flat].
    apply gen_or_left. exact (ip4_printed _ _ R).
  - apply gen_or_right. parts [of_string "IN"; lit " "; of_string "IP6"; lit " "; show_ip6 n]; [apply g_nocase_itself|apply g_nocase_itself| |flat].
    apply gen_or_left. exact (ip6_printed _ _ R).
Qed.
Lemma digits_again : forall w t, gen (row 1 w (fun c => 48 <= c <= 57)) t -> (1 <= w)%nat ->
  gen (row 1 w (fun c => 48 <= c <= 57)) (show_N (dec_value t)).
Proof.
  intros w t H P. pose proof H as G. apply PRfc.g_row in G; [|lia]. destruct G as (N & F & L).
  apply g_digits_row; [|exact P]. apply N.lt_le_trans with (10 ^ N.of_nat (List.length t)).
  - clear -F. induction t as [|c t IH] using rev_ind; [reflexivity|]. apply Forall_app in F. destruct F as [F C].
    inversion C as [|? ? C' _]; subst. specialize (IH F). rewrite dec_value_snoc, app_length. cbn [List.length].
    replace (N.of_nat (List.length t + 1)) with (N.succ (N.of_nat (List.length t))) by lia. rewrite N.pow_succ_r'. lia.
  - apply N.pow_le_mono_r; [lia|]. lia.
Qed.
Lemma a_remote_candidates : again_of ("remote-candidates"%string, rfc_remote_candidates).
Proof.
  starting. apply (g_inv_list 32) in H; [|reflexivity]. destruct H as [x [l [F ->]]].
  assert (K : forall t, gen one_remote t -> exists a b c, t = a ++ leads 32 [b; c] /\ Forall word [a; b; c] /\
    numeral u32_max a (dec_value a) /\ (exists r, reads_address b r) /\ numeral 65535 c (dec_value c) /\
    gen (row 1 3 (fun c => 48 <= c <= 57)) a /\ gen port c).
  { clear -OK. intros t H. pieces H. exists x, x1, x3. split; [cbn [List.concat leads flat_map app]; rewrite ?app_nil_r; reflexivity|].
    pose proof G as GA. pose proof G3 as GC.
    apply (g_digits _ _ u32_max) in G; [|lia|vm_compute; discriminate]. destruct G as (W & _ & U).
    apply (g_address OK) in G1. destruct G1 as (W1 & _ & R). apply PRfc.g_at_most in G3. destruct G3 as (W3 & _ & U3).
    split; [fa; assumption|]. auto. }
  inversion F as [|? ? H F']; subst. apply K in H. destruct H as (a & b & c & -> & W & U & [r R] & U3 & GA & GC).
  assert (L : exists ws, Forall word ws /\ leads 32 l = leads 32 ws).
  { clear -F' K. induction F' as [|t l H F [ws [IH1 IH2]]]; [exists []; split; [constructor|reflexivity]|].
    apply K in H. destruct H as (a & b & c & -> & W & _). exists (a :: b :: c :: ws).
    inversion W as [|? ? W1 W']; inversion W' as [|? ? W2 W'']; inversion W'' as [|? ? W3 _]; subst. split; [fa; assumption|].
    cbn [leads flat_map]. cbn [leads flat_map] in IH2. unfold leads in IH2. rewrite IH2.
    repeat (cbn [app]; rewrite <- ?app_assoc, ?app_nil_r). reflexivity. }
  destruct L as [ws [V ->]].
  inversion W as [|? ? W1 W']; inversion W' as [|? ? W2 W'']; inversion W'' as [|? ? W3 _]; subst.
  replace ((a ++ leads 32 [b; c]) ++ leads 32 ws) with (a ++ leads 32 (b :: c :: ws)) by (rewrite <- app_assoc, <- leads_app; reflexivity).
  set (rc := {| rc_component := dec_value a; rc_address := r; rc_port := dec_value c |}).
  apply (again_solid _ _ (ARemoteCandidate rc) (show_remote_candidate rc)); [|exact I| | |].
  - apply ends_leads; fa; assumption.
  - exists a, b, c, ws. split; [apply words_leads; fa; assumption|]. auto.
  - cbn [show_attr]. apply shown. unfold show_remote_candidate, rc. cbn [rc_component rc_address rc_port].
    pose proof (show_N_nonempty (dec_value a)). destruct (show_N (dec_value a)); [congruence|discriminate].
  - apply g_one. unfold show_remote_candidate, rc. cbn [rc_component rc_address rc_port].
    parts [show_N (dec_value a); lit " "; show_address r; lit " "; show_N (dec_value c)];
      [apply digits_again; [exact GA|lia]|exact (address_printed _ _ R)|apply g_again, GC|flat].
Qed.
Lemma a_rtcp : again_of ("rtcp"%string, rfc_rtcp).
Proof.
  starting. apply g_inv_cat in H. destruct H as [x [y [-> [H K]]]]. pose proof H as G. apply PRfc.g_at_most in H. destruct H as (W & _ & U).
  apply g_inv_opt in K. destruct K as [->|K].
  - rewrite app_nil_r. apply (again_solid _ _ (ARtcp {| rtcp_port := dec_value x; rtcp_unicast_addr := None |}) (show_N (dec_value x)));
      [apply word_ends, W|exact I| | |].
    + exists x, []. split; [|auto]. rewrite <- (app_nil_r x) at 1. apply (words_leads x []); [exact W|constructor].
    + apply (shown TRtcp), show_N_nonempty.
    + rewrite <- (app_nil_r (show_N (dec_value x))). apply gen_cat; [apply g_again, G|apply g_none].
  - apply g_inv_cat in K. destruct K as [u [v [-> [K V]]]]. apply g_inv_lit in K. subst u.
    apply (g_typed OK) in V. destruct V as (net & ty & addr & k & a & -> & W1 & W2 & W3 & M1 & M2 & _ & R).
    same (x ++ leads 32 [net; ty; addr]).
    apply (again_solid _ _ (ARtcp {| rtcp_port := dec_value x; rtcp_unicast_addr := Some a |}) (show_N (dec_value x) ++ 32 :: show_typed_address a));
      [|exact I| | |].
    + apply ends_leads; fa; assumption.
    + exists x, [net; ty; addr]. split; [apply words_leads; fa; assumption|]. split; [exact U|].
      split; [exact M1|]. exists k, a. auto.
    + cbn [show_attr]. apply (shown TRtcp). unfold show_rtcp. cbn [rtcp_unicast_addr rtcp_port].
      pose proof (show_N_nonempty (dec_value x)). destruct (show_N (dec_value x)); [congruence|discriminate].
    + apply gen_cat; [apply g_again, G|]. apply g_opt. apply (gen_cat _ _ (lit " ")); [apply gen_lit|exact (typed_printed _ _ _ R)].
Qed.

(** ** fingerprint *)
Lemma octet_printed : forall b, b <= 255 -> gen (Cat uhex uhex) (pad0 2 (show_HEX b)).
Proof.
  intros b L. pose proof (PGram2.g_octet b L) as H. cbn [times] in H. apply g_inv_cat in H. destruct H as [x [y [-> [H K]]]].
  apply g_inv_cat in K. destruct K as [y' [z [-> [K Z]]]]. apply g_inv_lit in Z. subst z. change (of_string "") with (@nil N).
  rewrite app_nil_r. apply gen_cat; assumption.
Qed.
Lemma octets_printed : forall bs n, Forall (fun b => b <= 255) bs -> List.length bs = S n ->
  gen (octets (S n)) (join [58] (map (fun b => pad0 2 (show_HEX b)) bs)).
Proof.
  intros [|b bs] n F L; [discriminate L|]. injection L as <-. cbn [map]. rewrite join_leads. inversion F as [|? ? B F']; subst. cbn [octets].
  apply gen_cat; [apply octet_printed, B|]. clear -F'. induction F' as [|b bs B F IH]; [exact (gen_lit "")|].
  cbn [List.length times map]. change (leads 58 (pad0 2 (show_HEX b) :: map (fun b => pad0 2 (show_HEX b)) bs)) with
    ((58 :: pad0 2 (show_HEX b)) ++ leads 58 (map (fun b => pad0 2 (show_HEX b)) bs)).
  apply gen_cat; [|exact IH]. apply (gen_cat _ _ (lit ":")); [apply gen_lit|apply octet_printed, B].
Qed.
Lemma fingerprint_again : forall h w k t, of_string w = of_string (hash_name h) ++ [32] -> S k = hash_octets h ->
  In (Cat (Lit w) (octets (S k))) [Cat (Lit "sha-1 ") (octets 20); Cat (Lit "sha-224 ") (octets 28); Cat (Lit "sha-256 ") (octets 32);
        Cat (Lit "sha-384 ") (octets 48); Cat (Lit "sha-512 ") (octets 64)] ->
  gen (Cat (Lit w) (octets (S k))) t -> again rfc_fingerprint "fingerprint" t.
Proof.
  intros h w k t Hw L Hin H. apply g_inv_cat in H. destruct H as [x [y [-> [H K]]]]. apply g_inv_lit in H. subst x.
  apply PRfc3.g_octets in K. destruct K as [x [l [-> [F N]]]].
  assert (V : exists bs, Forall2 (fun t n => byte_len t = 2 /\ hex_numeral 255 t n) (x :: l) bs).
  { clear -F. generalize dependent (x :: l). intros ts F. induction F as [|t ts H F [bs IH]]; [exists []; constructor|]. apply PRfc3.g_octet in H.
    destruct H as (_ & _ & B & n & U). exists (n :: bs). constructor; auto. }
  destruct V as [bs V].
  assert (B : Forall (fun b => b <= 255) bs /\ List.length bs = S k).
  { split; [|rewrite <- N; clear -V; induction V; cbn; congruence].
    clear -V. induction V as [|t n ts bs (_ & cs & ds & _ & _ & _ & _ & H) V IH]; constructor; assumption. }
  assert (W : word (x ++ leads 58 l)).
  { split; [|].
    - inversion F as [|? ? H F']; subst. apply PRfc3.g_octet in H. destruct H as ([Z _] & _). destruct x; [congruence|discriminate].
    - inversion F as [|? ? H F']; subst. apply PRfc3.g_octet in H. destruct H as ([_ Z] & _). apply Forall_app. split; [exact Z|].
      clear -F'. induction F' as [|t l H F IH]; [constructor|]. apply PRfc3.g_octet in H. cbn [leads flat_map].
      apply Forall_app. split; [constructor; [reflexivity|apply H]|exact IH]. }
  assert (Wh : word (of_string (hash_name h))) by (destruct h; apply word_b; reflexivity).
  replace (of_string w ++ x ++ leads 58 l) with (of_string (hash_name h) ++ leads 32 [x ++ leads 58 l])
    by (rewrite Hw; unfold leads; cbn [flat_map app]; repeat (rewrite <- app_assoc; cbn [app]); rewrite ?app_nil_r; reflexivity).
  apply (again_solid _ _ (AFingerprint {| fp_hash := h; fp_bytes := bs |}) (of_string w ++ join [58] (map (fun b => pad0 2 (show_HEX b)) bs)));
    [apply ends_leads; fa; assumption|exact I| | |].
  - exists (of_string (hash_name h)), (x ++ leads 58 l), (x :: l). cbn [fp_hash fp_bytes].
    split; [apply words_leads; fa; assumption|]. split; [reflexivity|]. split; [|split; [exact V|congruence]].
    inversion F as [|? ? H F']; subst. apply fields_leads; [apply PRfc3.g_octet, H|].
    eapply Forall_impl; [|exact F']. intros t T. apply PRfc3.g_octet, T.
  - cbn [show_attr]. unfold show_fingerprint. cbn [fp_hash fp_bytes]. rewrite Hw, <- app_assoc.
    rewrite shown by (destruct h; discriminate). destruct h; reflexivity.
  - unfold rfc_fingerprint. apply (g_alt_in _ _ _ _ Hin). apply gen_cat; [apply gen_lit|]. apply octets_printed; apply B.
Qed.
Lemma a_fingerprint : again_of ("fingerprint"%string, rfc_fingerprint).
Proof.
  starting. apply g_inv_alt in H. destruct H as [r [M H]].
  destruct M as [<-|[<-|[<-|[<-|[<-|[]]]]]].
  - exact (fingerprint_again Sha1 "sha-1 " 19 v eq_refl eq_refl ltac:(left; reflexivity) H).
  - exact (fingerprint_again Sha224 "sha-224 " 27 v eq_refl eq_refl ltac:(right; left; reflexivity) H).
  - exact (fingerprint_again Sha256 "sha-256 " 31 v eq_refl eq_refl ltac:(do 2 right; left; reflexivity) H).
  - exact (fingerprint_again Sha384 "sha-384 " 47 v eq_refl eq_refl ltac:(do 3 right; left; reflexivity) H).
  - exact (fingerprint_again Sha512 "sha-512 " 63 v eq_refl eq_refl ltac:(do 4 right; left; reflexivity) H).
Qed.
End WithExt.

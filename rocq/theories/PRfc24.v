(** * Lines of the RFCs are printed as lines of the RFCs (C80): what is not printed again *)
From Coq Require Import List Arith NArith ZArith Lia Bool Ascii String.
From Coq Require Import ZifyBool ZifyNat ZifyN.
From Verif Require Import Str Num Net Types Ext Show Address AttrParse Media Session SpecApi SpecDoc SpecVal SpecItems
  SpecPrint SpecIp SpecGrammar.
From Verif Require Import StrLemmas NumLemmas NetLemmas PVal PVal2 PVal6 PVal8 PVal9 PVal10 PVal11 PPrint PPrint2 PPrint3 PPrint4
  PPrint9 PPrint11 PIp PIp2 PDoc3 PExt0 PSettle PGrow PGram.
From Verif Require Import SpecRfc PRfc PRfc2 PRfc3 PRfc4 PRfc5 PRfc6 PRfc7 PRfc9 PRfc16 PRfc17 PRfc18 PRfc19 PRfc20 PRfc21 PRfc23.
Import ListNotations.
Open Scope N_scope.
Open Scope list_scope.

Lemma fmtp_dropped : forall E : Ext, exists t ty,
  gen (cats [Lit "a="; Lit "fmtp"; Lit ":"; rfc_fmtp]) t /\
  (forall n, parse_sdp_line t n = Ok {| l_number := n; l_type := ty; l_text := t |}) /\
  ~ gen (cats [Lit "a="; Lit "fmtp"; Lit ":"; rfc_fmtp]) (printed_line ty).
Proof.
  intro E. exists (lit "a=fmtp:109 stereo=0"). eexists. split; [|split; [intro n; vm_compute; reflexivity|]].
  - parts [lit "a="; lit "fmtp"; lit ":"; lit "109 stereo=0"]; [|reflexivity].
    parts [show_N 109; lit " "; lit "stereo=0"]; [apply g_number; lia| |reflexivity].
    eapply g_alt_in; [left; reflexivity|]. apply (PRfc16.g_list 59 ";" fmtp_parameter (lit "stereo=0") []); [reflexivity| |constructor].
    apply (g_named "stereo" 1 0); [unfold named_limits; cbn [In]; tauto|lia].
  - intro G. change (printed_line _) with (lit "a=") in G. apply g_inv_cats in G. destruct G as [ps [F Q]].
    inversion F as [|? a ? ? A F1]; subst. inversion F1 as [|? b ? ? B F2]; subst. apply g_inv_lit in A, B. subst a b. discriminate Q.
Qed.
Lemma ssrc_blank : forall E : Ext, exists t ty,
  gen (cats [Lit "a="; Lit "ssrc"; Lit ":"; rfc_ssrc]) t /\
  (forall n, parse_sdp_line t n = Ok {| l_number := n; l_type := ty; l_text := t |}) /\
  ~ gen (cats [Lit "a="; Lit "ssrc"; Lit ":"; rfc_ssrc]) (printed_line ty).
Proof.
  intro E. exists (lit "a=ssrc:1 c: "). eexists. split; [|split; [intro n; vm_compute; reflexivity|]].
  - parts [lit "a="; lit "ssrc"; lit ":"; lit "1 c: "]; [|reflexivity].
    parts [show_N 1; lit " "; lit "c"; lit ": "]; [apply g_number; vm_compute; discriminate|apply g_many1; [discriminate|constructor; [unfold token_char; lia|constructor]]| |reflexivity].
    apply g_opt. apply (gen_cat _ _ (lit ":")); [constructor|]. apply g_many1; [discriminate|constructor; [lia|constructor]].
  - intro G. apply g_inv_cats in G. destruct G as [ps [F Q]].
    inversion F as [|? a ? ? A F1]; subst. inversion F1 as [|? b ? ? B F2]; subst. inversion F2 as [|? c ? ? C F3]; subst.
    inversion F3 as [|? v ? ? V F4]; subst. inversion F4; subst. apply g_inv_lit in A, B, C. subst a b c.
    change (lit "a=ssrc:1 c:" = lit "a=ssrc:" ++ v ++ []) in Q. rewrite app_nil_r in Q. apply (app_inv_head (lit "a=ssrc:") (lit "1 c:")) in Q. subst v.
    clear F F1 F2 F3 F4. apply g_inv_cats in V. destruct V as [ps [F Q]].
    inversion F as [|? a ? ? A F1]; subst. inversion F1 as [|? b ? ? B F2]; subst. inversion F2 as [|? c ? ? C F3]; subst.
    inversion F3 as [|? v ? ? V F4]; subst. inversion F4; subst. apply g_inv_lit in B. subst b.
    apply g_inv_many1_chr in C. destruct C as [_ C]. cbn [List.concat] in Q. rewrite app_nil_r in Q.
    apply g_inv_opt in V. destruct V as [->|V].
    + rewrite app_nil_r in Q. apply (f_equal (@rev N)) in Q. rewrite !rev_app_distr in Q. apply Forall_rev in C.
      destruct (rev c) as [|y l]; [discriminate Q|]. injection Q as <- _. inversion C as [|? ? T _]; subst. unfold token_char in T. lia.
    + apply g_inv_cat in V. destruct V as [u [w [-> [U W]]]]. apply g_inv_lit in U. subst u. apply g_inv_many1_chr in W. destruct W as [N W].
      assert (I : forall x y : str, x ++ 58 :: y = lit "1 c:" -> y = []).
      { clear. intros x y H. change (lit "1 c:") with (lit "1 c" ++ [58]) in H.
        destruct x as [|? [|? [|? [|? x]]]]; cbn in H; try discriminate H; [injection H; auto|]. injection H as _ _ _ _ H. destruct x; discriminate H. }
      apply N. apply (I (a ++ lit " " ++ c)). rewrite Q. rewrite <- !app_assoc. reflexivity.
Qed.


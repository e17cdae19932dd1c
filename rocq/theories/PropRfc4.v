(** * C80: lines of the RFCs are printed as lines of the RFCs *)
From Coq Require Import List NArith ZArith Ascii String Lia.
From Verif Require Import Str Num Net Types Ext Show AttrParse Media Session SpecVal SpecPrint SpecGrammar SpecRfc Ext0.
From Verif Require Import PRfc PRfc9 PRfc17 PRfc20 PRfc22 PRfc23 PRfc24.
Import ListNotations.
Open Scope N_scope.
Open Scope list_scope.

(** Every line that follows a rule of C62 is printed following the same rule,
    whatever the letter or attribute, except for fmtp and ssrc. *)
Theorem C80_again : forall E : Ext, ext_ok E -> forall k r t n, k <> "fmtp"%string -> k <> "ssrc"%string ->
  In (k, r) (rfc_attributes ++ rfc_lines) -> gen r t ->
  exists ty, parse_sdp_line t n = Ok {| l_number := n; l_type := ty; l_text := t |} /\ item_name ty = k /\ gen r (printed_line ty).
Proof. intros E OK k r t n D1 D2 M G. exact (lines_retaken OK k r t D1 D2 M G n). Qed.

(** So is every fmtp line, if there is anything left to print: parameters at
    their default are not. *)
Theorem C80_fmtp : forall E : Ext, forall t n, gen (cats [Lit "a="; Lit "fmtp"; Lit ":"; rfc_fmtp]) t -> exists f,
  parse_sdp_line t n = Ok {| l_number := n; l_type := TyAttribute (AFmtp f); l_text := t |} /\
  (printed_line (TyAttribute (AFmtp f)) = lit "a=" \/
   gen (cats [Lit "a="; Lit "fmtp"; Lit ":"; rfc_fmtp]) (printed_line (TyAttribute (AFmtp f)))).
Proof. exact @fmtp_again. Qed.

(** So is every ssrc line, if its value is more than blanks. *)
Theorem C80_ssrc : forall E : Ext, forall t n, gen (cats [Lit "a="; Lit "ssrc"; Lit ":"; rfc_ssrc]) t -> exists s,
  parse_sdp_line t n = Ok {| l_number := n; l_type := TyAttribute (ASsrc s); l_text := t |} /\
  (ssrc_value s <> Some [] -> gen (cats [Lit "a="; Lit "ssrc"; Lit ":"; rfc_ssrc]) (printed_line (TyAttribute (ASsrc s)))).
Proof. exact @ssrc_again. Qed.

(** Without these exceptions it is not so. *)
Theorem C80_fmtp_refuted : forall E : Ext, exists t ty,
  gen (cats [Lit "a="; Lit "fmtp"; Lit ":"; rfc_fmtp]) t /\
  (forall n, parse_sdp_line t n = Ok {| l_number := n; l_type := ty; l_text := t |}) /\
  ~ gen (cats [Lit "a="; Lit "fmtp"; Lit ":"; rfc_fmtp]) (printed_line ty).
Proof. exact @fmtp_dropped. Qed.
Theorem C80_ssrc_refuted : forall E : Ext, exists t ty,
  gen (cats [Lit "a="; Lit "ssrc"; Lit ":"; rfc_ssrc]) t /\
  (forall n, parse_sdp_line t n = Ok {| l_number := n; l_type := ty; l_text := t |}) /\
  ~ gen (cats [Lit "a="; Lit "ssrc"; Lit ":"; rfc_ssrc]) (printed_line ty).
Proof. exact @ssrc_blank. Qed.

(** ** Examples *)
(** Lines written in other ways than they are printed in. *)
Example C80_example_setup : forall E : Ext, exists l,
  parse_sdp_line (lit "a=setup:ACTIVE") 1 = Ok l /\ printed_line (l_type l) = lit "a=setup:active".
Proof. intro E. eexists. split; [vm_compute; reflexivity|]. vm_compute. reflexivity. Qed.
Example C80_example_rid : forall E : Ext, exists l,
  parse_sdp_line (lit "a=rid:foo send pt=097,98;depends=bar;max-br=007;foo=;max-fs=0") 1 = Ok l /\ printed_line (l_type l) = lit "a=rid:foo send pt=97,98;max-br=7;foo=;depends=bar".
Proof. intro E. eexists. split; [vm_compute; reflexivity|]. vm_compute. reflexivity. Qed.
Example C80_example_fmtp : forall E : Ext, exists l,
  parse_sdp_line (lit "a=fmtp:109 STEREO=1;maxplaybackrate=048000;x=1;y=2") 1 = Ok l /\ printed_line (l_type l) = lit "a=fmtp:109 stereo=1;x=1,y=2".
Proof. intro E. eexists. split; [vm_compute; reflexivity|]. vm_compute. reflexivity. Qed.
Example C80_example_candidate : exists l,
  parse_sdp_line (E := Ext0) (lit "a=candidate:0 01 udp 2122252543 172.16.156.106 049760 TYP HOST GENERATION 0 Foo bar network-cost 010") 1 = Ok l /\
  printed_line (E := Ext0) (l_type l) = lit "a=candidate:0 1 UDP 2122252543 172.16.156.106 49760 typ host generation 0 network-cost 10 Foo bar".
Proof. eexists. split; [vm_compute; reflexivity|]. vm_compute. reflexivity. Qed.

(** Assumptions of everything above. *)
Definition theorems := (C80_again, C80_fmtp, C80_ssrc, C80_fmtp_refuted, C80_ssrc_refuted).
Print Assumptions theorems.

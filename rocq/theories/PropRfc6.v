(** * C82: masked lines and the rules of the RFCs *)
From Coq Require Import List NArith ZArith Ascii String Lia.
From Verif Require Import Str Num Net Types Ext Show AttrParse Media Session Anon SpecVal SpecPrint SpecGrammar SpecRfc SpecAnon SpecMask Ext0.
From Verif Require Import PMask2 PRfc26.
Import ListNotations.
Open Scope N_scope.
Open Scope list_scope.

(** A line that follows a rule of C62 and is read, masked after anything else
    was masked, and printed follows the same rule, except for four attributes
    (fmtp lines are not masked, see C80). *)
Theorem C82_lines : forall E : Ext, ext_ok E -> masked_names_are_domains -> forall (h : list aval) k r t n v l ty',
  k <> "fmtp"%string -> k <> "ssrc"%string -> k <> "ice-ufrag"%string -> k <> "ice-pwd"%string -> k <> "fingerprint"%string ->
  In (k, r) (rfc_attributes ++ rfc_lines) -> gen r t -> parse_sdp_line t n = Ok l ->
  line_value v = Some (l_type l) -> line_value (fst (mask_val v (after anon_new h))) = Some ty' ->
  ports_fit (flat_map SpecAnon.fields (h ++ [v])) -> gen r (printed_line ty').
Proof. exact @masked_line_follows. Qed.

(** So does a ssrc line, if its value is more than blanks or gets masked. *)
Theorem C82_ssrc : forall E : Ext, ext_ok E -> forall (h : list aval) t n s l,
  gen (cats [Lit "a="; Lit "ssrc"; Lit ":"; rfc_ssrc]) t ->
  parse_sdp_line t n = Ok l -> l_type l = TyAttribute (ASsrc s) ->
  ssrc_value s <> Some [] \/ (exists a, ssrc_attribute s = Some a /\ is_cname a = true) ->
  gen (cats [Lit "a="; Lit "ssrc"; Lit ":"; rfc_ssrc]) (printed_line (TyAttribute (fst (mask_attr (ASsrc s) (after anon_new h))))).
Proof. exact @masked_ssrc_follows. Qed.

(** The masks for user fragments, passwords and fingerprints never do. *)
Theorem C82_ice_ufrag_refuted : forall (E : Ext) (h : list aval) u,
  ~ gen (cats [Lit "a="; Lit "ice-ufrag"; Lit ":"; row 4 256 ice_char])
      (printed_line (TyAttribute (fst (mask_attr (AIceUfrag u) (after anon_new h))))).
Proof. exact @masked_ufrag_breaks. Qed.
Theorem C82_ice_pwd_refuted : forall (E : Ext) (h : list aval) u,
  ~ gen (cats [Lit "a="; Lit "ice-pwd"; Lit ":"; row 22 256 ice_char])
      (printed_line (TyAttribute (fst (mask_attr (AIcePwd u) (after anon_new h))))).
Proof. exact @masked_pwd_breaks. Qed.
Theorem C82_fingerprint_refuted : forall E : Ext, ext_ok E -> forall (h : list aval) f,
  ~ gen (cats [Lit "a="; Lit "fingerprint"; Lit ":"; rfc_fingerprint])
      (printed_line (TyAttribute (fst (mask_attr (AFingerprint f) (after anon_new h))))).
Proof. exact @masked_fingerprint_breaks. Qed.

(** ** Examples *)
Example C82_example_candidate : exists l,
  parse_sdp_line (E := Ext0) (lit "a=candidate:0 1 UDP 2122252543 172.16.156.106 49760 typ srflx raddr foo.bar rport 7 generation 0") 1 = Ok l /\
  match l_type l with
  | TyAttribute x => printed_line (E := Ext0) (TyAttribute (fst (mask_attr x (after anon_new [VPort 5]))))
  | _ => []
  end = lit "a=candidate:0 1 UDP 2122252543 0.0.0.1 2 typ srflx raddr fqdn-00000001 rport 3 generation 0".
Proof. eexists. split; [vm_compute; reflexivity|]. vm_compute. reflexivity. Qed.
Example C82_example_connection : exists l,
  parse_sdp_line (E := Ext0) (lit "c=IN IP4 224.2.36.42/127/3") 1 = Ok l /\
  match l_type l with
  | TyConnection x => printed_line (E := Ext0) (TyConnection (fst (mask_connection x (after anon_new []))))
  | _ => []
  end = lit "c=IN IP4 0.0.0.1/127/3".
Proof. eexists. split; [vm_compute; reflexivity|]. vm_compute. reflexivity. Qed.
Example C82_example_ice : forall E : Ext,
  map (fun x => printed_line (TyAttribute (fst (mask_attr x (after anon_new []))))) [AIceUfrag (lit "4a799b2e"); AIcePwd (lit "e4cc12a910f106a0a744719425510e17")] =
  [lit "a=ice-ufrag:ice-user-00000001"; lit "a=ice-pwd:ice-password-00000001"].
Proof. intro E. vm_compute. reflexivity. Qed.
(** The host parser of the reference instance takes the masked names. *)
Example C82_example_names : masked_names_are_domains (E := Ext0).
Proof. exact masked_names_ext0. Qed.

(** Assumptions of everything above. *)
Definition theorems := (C82_lines, C82_ssrc, C82_ice_ufrag_refuted, C82_ice_pwd_refuted, C82_fingerprint_refuted).
Print Assumptions theorems.

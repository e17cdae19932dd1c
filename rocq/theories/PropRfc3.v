(** * C79: frame rates and image attributes are printed as the RFCs write them *)
From Coq Require Import List NArith ZArith Ascii String Lia.
From Verif Require Import Str Num Net Types Ext Show AttrParse Media Session SpecVal SpecPrint SpecGrammar SpecRfc SpecFloat SpecRfc2 SpecRfc3 Ext0.
From Verif Require Import PFloat4 PRfc9 PRfc12 PRfc13 PRfc14 PRfc16.
Import ListNotations.
Open Scope N_scope.
Open Scope list_scope.

(** Every framerate line that is read is printed as RFC 8866 writes frame rates,
    unless the rate is negative; also those that are not written so. *)
Theorem C79_framerate : forall E : Ext, std_floats E -> forall v n l, parse_sdp_line (lit "a=framerate:" ++ v) n = Ok l ->
  exists x, l_type l = TyAttribute (AFrameRate x) /\
    (gen (Cat (Lit "a=framerate:") any_framerate) (printed_line (l_type l)) <-> positive64 x).
Proof. exact @framerate_again. Qed.

(** Every imageattr line of RFC 6236 is printed as one, if no ratio and no
    preference in it is a whole number. *)
Theorem C79_imageattr : forall E : Ext, std_floats E -> forall t n, (Z.of_nat (List.length t) < 2147483648)%Z ->
  gen imageattr_line t ->
  exists a, parse_sdp_line t n = Ok {| l_number := n; l_type := TyAttribute (AImageAttr a); l_text := t |} /\
    (Forall (fun x => ~ whole32 x) (image_floats a) -> gen imageattr_line (printed_line (TyAttribute (AImageAttr a)))).
Proof. exact @imageattr_again. Qed.

(** Not so for whole numbers: they are printed without the point that the RFC asks for. *)
Theorem C79_whole_refuted : forall E : Ext, std_floats E -> exists t a,
  gen imageattr_line t /\ (forall n, parse_sdp_line t n = Ok {| l_number := n; l_type := TyAttribute (AImageAttr a); l_text := t |}) /\
  ~ gen imageattr_line (printed_line (TyAttribute (AImageAttr a))).
Proof. exact whole_changed. Qed.

(** ** Examples *)
Example C79_example_framerate : exists l m,
  parse_sdp_line (E := Ext0) (lit "a=framerate:+2997e-2") 7 = Ok l /\ printed_line (E := Ext0) (l_type l) = lit "a=framerate:29.97" /\
  parse_sdp_line (E := Ext0) (lit "a=framerate:-30.0") 7 = Ok m /\ printed_line (E := Ext0) (l_type m) = lit "a=framerate:-30".
Proof. eexists _, _. split; [vm_compute; reflexivity|]. split; [vm_compute; reflexivity|]. split; [vm_compute; reflexivity|]. vm_compute. reflexivity. Qed.
(** The line of C75_example_imageattr: no float in it is whole, and it is printed without the unknown key. *)
Example C79_example_imageattr : exists a,
  parse_sdp_line (E := Ext0) (lit "a=imageattr:97 send [x=[480:16:800],y=[320:16:640],par=[1.2-1.3],q=0.6] [x=[176,208],y=144,sar=[1.1,1.3],foo=bar] recv *") 7 =
    Ok {| l_number := 7; l_type := TyAttribute (AImageAttr a);
          l_text := lit "a=imageattr:97 send [x=[480:16:800],y=[320:16:640],par=[1.2-1.3],q=0.6] [x=[176,208],y=144,sar=[1.1,1.3],foo=bar] recv *" |} /\
  Forall (fun x => ~ whole32 x) (image_floats a) /\ List.length (image_floats a) = 5%nat /\
  printed_line (E := Ext0) (TyAttribute (AImageAttr a)) =
    lit "a=imageattr:97 send [x=[480:16:800],y=[320:16:640],par=[1.2-1.3],q=0.6] [x=[176,208],y=144,sar=[1.1,1.3]] recv *".
Proof.
  eexists. split; [vm_compute; reflexivity|]. split; [|split; vm_compute; reflexivity].
  repeat constructor; intros [k K]; apply (f_equal (fun m => m mod 2 ^ 149)) in K; rewrite N.mod_mul in K by (vm_compute; discriminate); vm_compute in K; discriminate K.
Qed.
Example C79_example_whole : exists a,
  parse_sdp_line (E := Ext0) (lit "a=imageattr:* recv [x=800,y=[50,80],q=1.0]") 7 =
    Ok {| l_number := 7; l_type := TyAttribute (AImageAttr a); l_text := lit "a=imageattr:* recv [x=800,y=[50,80],q=1.0]" |} /\
  printed_line (E := Ext0) (TyAttribute (AImageAttr a)) = lit "a=imageattr:* recv [x=800,y=[50,80],q=1]" /\
  Forall whole32 (image_floats a).
Proof.
  eexists. split; [vm_compute; reflexivity|]. split; [vm_compute; reflexivity|]. repeat constructor. exists 1. vm_compute. reflexivity.
Qed.

(** Assumptions of everything above. *)
Definition theorems := (C79_framerate, C79_imageattr, C79_whole_refuted).
Print Assumptions theorems.

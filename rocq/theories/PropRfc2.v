(** * C75: frame rates and image attributes as the RFCs write them *)
From Coq Require Import List NArith ZArith Ascii String Lia.
From Verif Require Import Str Num Net Types Ext Show AttrParse Media Session SpecVal SpecGrammar SpecRfc SpecFloat SpecRfc2 Ext0.
From Verif Require Import PRfc9 PRfc12 PRfc13.
Import ListNotations.
Open Scope N_scope.
Open Scope list_scope.

(** Every framerate line of RFC 8866 of at most 300 characters is read. *)
Theorem C75_framerate : forall E : Ext, std_floats E -> forall t n, gen framerate_line t ->
  exists x, parse_sdp_line t n = Ok {| l_number := n; l_type := TyAttribute (AFrameRate x); l_text := t |}.
Proof. exact @framerate_taken. Qed.

(** Every imageattr line of RFC 6236 with single spaces is read; the length is
    that of a line whose brackets an i32 can count. *)
Theorem C75_imageattr : forall E : Ext, std_floats E -> forall t n, (Z.of_nat (List.length t) < 2147483648)%Z ->
  gen imageattr_line t ->
  exists a, parse_sdp_line t n = Ok {| l_number := n; l_type := TyAttribute (AImageAttr a); l_text := t |}.
Proof. exact @imageattr_taken. Qed.

(** Not so for what else the RFCs allow. *)
Theorem C75_beyond_refuted : forall E : Ext, std_floats E -> forall r, In r image_beyond ->
  exists t, gen r t /\ forall n l, parse_sdp_line t n <> Ok l.
Proof. exact @image_beyond_refused. Qed.

(** ** Examples *)
Example C75_example_framerate : gen framerate_line (lit "a=framerate:29.97") /\
  parse_sdp_line (E := Ext0) (lit "a=framerate:29.97") 7 =
    Ok {| l_number := 7; l_type := TyAttribute (AFrameRate 4629129022734147256); l_text := lit "a=framerate:29.97" |}.
Proof.
  split; [|vm_compute; reflexivity]. apply (gen_cat _ _ (lit "a=framerate:") (lit "29.97")); [apply gen_lit|].
  apply gen_such; [|cbn; lia]. apply gen_or_right. by_pieces [lit "29"; lit "."; lit "9"; lit "7"].
  - apply gen_or_right. apply (gen_cat _ _ [50] [57]); [constructor; lia | apply PRfc9.g_many; constructor; [unfold dec; lia|constructor]].
  - apply PRfc9.g_many. constructor; [unfold dec; lia|constructor].
  - constructor. lia.
Qed.
Example C75_example_imageattr : forall t,
  t = lit "a=imageattr:97 send [x=[480:16:800],y=[320:16:640],par=[1.2-1.3],q=0.6] [x=[176,208],y=144,sar=[1.1,1.3],foo=bar] recv *" ->
  gen imageattr_line t /\ exists a, parse_sdp_line (E := Ext0) t 7 = Ok {| l_number := 7; l_type := TyAttribute (AImageAttr a); l_text := t |} /\
    img_pt a = PayloadType 97 /\ img_recv a = SetsWildcard /\
    match img_send a with
    | Sets [one; two] => set_x one = XyRange 480 800 (Some 16) /\ set_x two = XyDiscrete [176; 208] /\ set_y two = XyDiscrete [144] /\
        set_par one <> None /\ set_q one <> None /\ set_sar two <> None
    | _ => False
    end.
Proof.
  intros t ->. split; [exact example_imageattr|]. eexists. split; [vm_compute; reflexivity|]. split; [reflexivity|]. split; [reflexivity|].
  repeat split; discriminate.
Qed.
(** A list that does not rise is not of the rule. *)
Example C75_example_falling : ~ grows 44 (lit "1.3,1.1") /\ grows 44 (lit "1.1,1.3").
Proof. split; [exact falling | exact growing]. Qed.

(** Assumptions of everything above. *)
Definition theorems := (C75_framerate, C75_imageattr, C75_beyond_refuted).
Print Assumptions theorems.

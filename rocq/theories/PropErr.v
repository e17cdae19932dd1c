(** * C73: what is said about an error *)
From Coq Require Import List NArith Ascii String.
From Verif Require Import Str Num Net Types Ext Show Session SpecVal SpecWhy SpecErr PErr Ext0.
Import ListNotations.
Open Scope N_scope.
Open Scope list_scope.

(** The text of every error of a value, and that it tells which error it is, with
    all that belongs to it. *)
Theorem C73_told : forall (e : ierr) t, show_ierr e = t <-> reads e t.
Proof. intros e t. rewrite reads_iff. split; intros ->; reflexivity. Qed.
Theorem C73_told_apart : forall a b t, reads a t -> reads b t -> a = b.
Proof. exact reads_inj. Qed.

(** The text of every error of a line or of their order. *)
Theorem C73_reported : forall (e : perr) t, show_perr e = t <-> reports e t.
Proof. intros e t. rewrite reports_iff. split; intros ->; reflexivity. Qed.

(** Lines for every kind of error, with what is said about them. *)
Definition told (line : str) : option str :=
  match parse_sdp_line (E:=Ext0) line 4 with Err e => Some (show_perr e) | _ => None end.
Example C73_examples :
  map told
    [ lit "a=rtcp:9 IN IP5 ::1"; lit "c=IN IP5 ::1"; lit "c=IN IP4 ::1"; lit "v=1"; lit "a=foo:1"; lit "t=1 x"; lit "t="; lit "v=99999999999999999999";
      lit "a=imageattr:1 send [x=1,y=1,q=x]"; lit "a=candidate:0 1 UDP 1 ::g 9 typ host"; lit "o=- 0 0 IN IP4 a<b" ] =
  map Some
    [ lit "Line error: Unknown address type: IP5 in line(4): a=rtcp:9 IN IP5 ::1";
      lit "Line error: Parsing error: address type must be IP4 or IP6 in line(4): c=IN IP5 ::1";
      lit "Line error: Address is of a different type(1) than declared(2): IP6, IP4 in line(4): c=IN IP4 ::1";
      lit "Line error: Parsing error: version type contains unsupported value 1 in line(4): v=1";
      lit "Unsupported: Unsupported parsing error: Unknown attribute type foo in line(4): a=foo:1";
      lit "Line error: Integer parsing error: invalid digit found in string in line(4): t=1 x";
      lit "Line error: Parsing error: value is empty in line(4): t=";
      lit "Line error: Integer parsing error: number too large to fit in target type in line(4): v=99999999999999999999";
      lit "Line error: Float parsing error: invalid float literal in line(4): a=imageattr:1 send [x=1,y=1,q=x]";
      lit "Line error: IP address parsing error: invalid IP address syntax in line(4): a=candidate:0 1 UDP 1 ::g 9 typ host";
      lit "Line error: Domain name parsing error: invalid domain character in line(4): o=- 0 0 IN IP4 a<b" ].
Proof. vm_compute. reflexivity. Qed.

Definition theorems := (C73_told, C73_told_apart, C73_reported).
Print Assumptions theorems.

(** * The external components

    Many theorems take [ext_total E] or [ext_ok E] about the components outside
    the model (float and host parsing).  [Ext0] satisfies them, so these
    theorems are not empty; and whole documents can be run with it. *)
From Coq Require Import List NArith ZArith Bool Ascii String.
From Verif Require Import Str Num Net Types Ext Show Address AttrParse Media Session
  SpecVal SpecPrint PropRound Ext0 PExt0.
Import ListNotations.
Open Scope N_scope.
Open Scope list_scope.

Theorem ext_ok_satisfiable : exists E : Ext, ext_ok E.
Proof. exact (ex_intro _ Ext0 ext0_ok). Qed.

(** The remaining exception of C10: a NaN is printed without its sign. *)
Theorem C10_nan_refuted : exists E : Ext, ext_ok E /\
  does_not_survive (document_with [lit "a=imageattr:* send [x=1,y=1,q=-nan]"]).
Proof.
  exists Ext0. split; [exact ext0_ok|]. lost.
Qed.

(** Documents with IPv4 addresses and floats survive. *)
Definition survives {E : Ext} (sdp : str) : Prop :=
  exists s, parse_sdp sdp true = Ok s /\ parse_sdp (show_session s) true = Ok s /\ s_warnings s = [].
Example C10_float_example :
  survives (E := Ext0) (document_with [lit "a=framerate:29.97"; lit "a=imageattr:* send [x=[1:2],y=[3,4],sar=[1.25-1.5],par=[0.5-2],q=0.7]";
    lit "a=candidate:1 1 UDP 2113 192.0.2.1 9 typ srflx raddr a.example rport 8"; lit "c=IN IP4 192.0.2.7/12"]).
Proof. eexists. split; [vm_compute; reflexivity|]. split; vm_compute; reflexivity. Qed.

Definition theorems := (ext_ok_satisfiable, C10_nan_refuted).
Print Assumptions theorems.

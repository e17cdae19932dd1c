(** * Printing and parsing again and again (C55).  Only definitions. *)
From Coq Require Import List NArith ZArith Bool Ascii String.
From Verif Require Import Str Num Net Types Ext Show Session SpecApi SpecDoc SpecVal SpecItems SpecPrint.
Import ListNotations.
Open Scope N_scope.
Open Scope list_scope.

(** A text stays the same or becomes shorter. *)
Definition shrinks (t t' : str) : Prop := t' = t \/ (List.length t' < List.length t)%nat.
(** Attributes that may still change the second time. *)
Definition unsettled (a : attr) : Prop :=
  match a with
  (* a dependency of blanks only *)
  | ARid r => Exists (fun d => d <> [] /\ blank d) (rid_depends r)
  (* "rid=" within an id *)
  | ASimulcast s => Exists (fun v => Exists (fun i => In 61 (sid_id i)) v) (sim_send s ++ sim_receive s)
  | _ => False
  end.
Definition item_unsettled (ty : sdp_type) : Prop := match ty with TyAttribute a => unsettled a | _ => False end.
Definition has_unsettled (s : session) : Prop := Exists item_unsettled (session_items s).

Section WithExt.
Context {E : Ext}.
(** Printing and parsing again, several times. *)
Inductive rounds : nat -> session -> session -> Prop :=
| no_round : forall s, rounds 0 s s
| one_more : forall k s s1 s2, rounds k s s1 -> parse_sdp (show_session s1) false = Ok s2 -> rounds (S k) s s2.
End WithExt.

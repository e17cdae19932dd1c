(** * C64: a session holds no more than its text

    Only statements; the proofs are in PSize.v. *)
From Coq Require Import List Arith NArith Lia Ascii String.
From Verif Require Import Str Num Net Types Ext Session SpecDoc SpecVal SpecItems SpecSize.
From Verif Require Import Ext0 PExt0 PVal8 PSize.
Import ListNotations.
Open Scope nat_scope.
Open Scope list_scope.

(** What is kept of an accepted line is bounded by its length. *)
Theorem C64_lines : forall (E : Ext) k, 1 <= k -> names_grow_by k -> forall line n l,
  parse_sdp_line line n = Ok l -> S (item_size (l_type l)) <= S k * text line.
Proof.
  intros E k K1 KN line n l H. apply line_fwd in H. destruct H as (_ & _ & M).
  exact (line_bound k K1 KN line (l_type l) M).
Qed.

(** What is kept of an accepted text, with the lines its warnings show, is
    bounded by its length. *)
Theorem C64_sessions : forall (E : Ext) k, 1 <= k -> names_grow_by k -> forall sdp b s,
  parse_sdp sdp b = Ok s -> session_size s <= S k * text sdp.
Proof. exact session_bound. Qed.

(** The host parser of the reference instance does not lengthen names. *)
Theorem C64_names_of_the_instance : names_grow_by (E := Ext0) 1.
Proof.
  intros s d H. apply host0_domain in H. destruct H as (-> & _). unfold text. rewrite map_length. lia.
Qed.

(** The factor is needed: empty names in a simulcast line take one char of the
    text, and make a version with an alternative. *)
Theorem C64_length_refuted : exists line l, forall (E : Ext),
  parse_sdp_line line 0 = Ok l /\ text line < item_size (l_type l).
Proof.
  set (line := lit "a=simulcast:send ;;;;;;;;;;;;;;;;;;;;;;;;;;;;;;").
  exists line, {| l_number := 0; l_type := TyAttribute (ASimulcast {| sim_send := repeat [{| sid_id := []; sid_paused := false |}] 31; sim_receive := [] |}); l_text := line |}.
  intros E. split; [vm_compute; reflexivity|]. vm_compute. lia.
Qed.

(** ** Cases *)
Definition example_text : str :=
  flat_map (fun l => l ++ [13; 10]%N)
    [lit "v=0"; lit "o=me 1 2 IN IP6 ::1"; lit "s=name"; lit "t=0 0"; lit "c=IN IP6 ::1";
     lit "a=group:BUNDLE a bc"; lit "a=unknown"; lit "m=audio 9 RTP/SAVPF 0 8"; lit "a=mid:bc"].
(** v 1, o 1+2, s 4, t 1, c 1, group 1 + 2 + 3, the warning 1+9, m 1+2, mid 1+2. *)
Example C64_case : forall E : Ext, exists s, parse_sdp example_text false = Ok s /\ session_size s = 1 + 3 + 4 + 1 + 1 + 6 + 10 + 3 + 3 /\
  text example_text = 122.
Proof.
  intros E. destruct (parse_sdp example_text false) as [s| |] eqn:Q; vm_compute in Q; try discriminate Q.
  exists s. injection Q as <-. vm_compute. repeat split.
Qed.

Definition theorems := (C64_lines, C64_sessions, C64_names_of_the_instance, C64_length_refuted).
Print Assumptions theorems.

(** * Specification vocabulary for blanks between fields (C85) *)
From Coq Require Import List NArith Ascii String.
From Verif Require Import Str SpecDoc SpecVal.
Import ListNotations.
Open Scope N_scope.
Open Scope list_scope.

(** The same words with other whitespace between and around them. *)
Definition reblanked (v v' : str) : Prop := exists l, words v l /\ words v' l.

(** The types and attributes whose values are lists of words. *)
Definition word_types : list str := [lit "c"; lit "m"; lit "o"; lit "t"].
Definition word_attributes : list str :=
  [ lit "candidate"; lit "extmap"; lit "fingerprint"; lit "group"; lit "ice-options"; lit "msid"; lit "msid-semantic";
    lit "remote-candidates"; lit "rtcp"; lit "rtpmap"; lit "sctpmap"; lit "simulcast"; lit "ssrc-group" ].

(** Lines of these types and attributes that differ only in blanks.  Type and
    name may be written in any case. *)
Inductive respaced : str -> str -> Prop :=
| respaced_type : forall k t v v', In k word_types -> recased t k -> reblanked v v' ->
    respaced (t ++ [61] ++ v) (t ++ [61] ++ v')
| respaced_attribute : forall k t name v v', In k word_attributes -> recased t (lit "a") -> recased name k -> reblanked v v' ->
    respaced (t ++ [61] ++ name ++ [58] ++ v) (t ++ [61] ++ name ++ [58] ++ v').

(** Lines that differ in blanks around type and value (C39) or in these. *)
Definition reworded (x y : str) : Prop := padded x y \/ respaced x y.

(** ** Surplus words (C86) *)
(** Types and attributes of which only so many words are looked at. *)
Definition first_words_types : list (str * nat) := [(lit "o", 6%nat)].
Definition first_words_attributes : list (str * nat) :=
  [ (lit "msid", 2%nat); (lit "remote-candidates", 3%nat); (lit "rtcp", 4%nat); (lit "rtpmap", 2%nat); (lit "simulcast", 4%nat) ].
(** Types and attributes that have exactly so many words. *)
Definition all_words_types : list (str * nat) := [(lit "c", 3%nat); (lit "t", 2%nat)].
Definition all_words_attributes : list (str * nat) := [(lit "fingerprint", 2%nat); (lit "sctpmap", 3%nat)].
(** [v'] has the first [k] words of [v], and any others. *)
Definition same_start (k : nat) (v v' : str) : Prop := exists l r r', List.length l = k /\ words v (l ++ r) /\ words v' (l ++ r').
(** Lines that differ only in surplus words (and in whitespace). *)
Inductive surplus : str -> str -> Prop :=
| surplus_type : forall k c t v v', In (k, c) first_words_types -> recased t k -> same_start c v v' ->
    surplus (t ++ [61] ++ v) (t ++ [61] ++ v')
| surplus_attribute : forall k c t name v v', In (k, c) first_words_attributes -> recased t (lit "a") -> recased name k -> same_start c v v' ->
    surplus (t ++ [61] ++ name ++ [58] ++ v) (t ++ [61] ++ name ++ [58] ++ v').

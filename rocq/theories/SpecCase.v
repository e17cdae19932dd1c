(** * Specification vocabulary for case insensitivity (C15)

    Only definitions: which letters of a line may change their case. *)
From Coq Require Import List NArith ZArith Bool Ascii String.
From Verif Require Import Str Num Net Types Ext Show Session SpecApi SpecDoc SpecVal.
Import ListNotations.
Open Scope N_scope.
Open Scope list_scope.

(** Word by word: recased where [keys] says so, unchanged elsewhere. *)
Fixpoint recased_where (keys : list bool) (l l' : list str) : Prop :=
  match l, l' with
  | [], [] => True
  | x :: r, x' :: r' =>
      match keys with true :: _ => recased x x' | _ => x = x' end /\ recased_where (tl keys) r r'
  | _, _ => False
  end.
Definition words_variant (keys : list bool) (v v' : str) : Prop :=
  exists l l', words v l /\ words v' l' /\ recased_where keys l l'.

(** A name that is kept as it is unless it is known. *)
Definition known_recased (known : str -> Prop) (n n' : str) : Prop :=
  n = n' \/ (recased n n' /\ known n).

(** candidate: transport, "typ", type, names of known extensions, tcptype. *)
Inductive extensions_variant : list str -> list str -> Prop :=
| extensions_nil : extensions_variant [] []
| extensions_odd : forall n, extensions_variant [n] [n]
| extensions_pair : forall n n' v v' l l',
    known_recased (fun n => Exists (means n) extension_names) n n' ->
    known_recased (fun _ => means n "tcptype") v v' ->
    extensions_variant l l' -> extensions_variant (n :: v :: l) (n' :: v' :: l').
Definition candidate_variant (v v' : str) : Prop :=
  exists l l', words v l /\ words v' l' /\
    recased_where [false; false; true; false; false; false; true; true] (firstn 8 l) (firstn 8 l') /\
    extensions_variant (skipn 8 l) (skipn 8 l').

(** extmap: the direction. *)
Definition extmap_variant (v v' : str) : Prop :=
  exists id id' l a b b', words v (id :: l) /\ words v' (id' :: l) /\
    cut 47 id a b /\ cut 47 id' a b' /\ recased b b'.

(** fmtp: names of known parameters. *)
Definition parameter_variant (t t' : str) : Prop :=
  t = t' \/ exists n n' x, cut 61 t n x /\ cut 61 t' n' x /\
    known_recased (fun n => Exists (means_upper n) fmtp_names) n n'.
Definition fmtp_variant (v v' : str) : Prop :=
  exists t t' pt b b' l l', core v t /\ core v' t' /\ cut 32 t pt b /\ cut 32 t' pt b' /\
    fields 59 b l /\ fields 59 b' l' /\ Forall2 parameter_variant l l'.

Definition keyword_variant (name v v' : str) : Prop :=
  v = v' \/
  (means name "candidate" /\ candidate_variant v v') \/
  (means name "extmap" /\ extmap_variant v v') \/
  (means name "fmtp" /\ fmtp_variant v v') \/
  (means name "group" /\ words_variant [true] v v') \/
  (means name "rtcp" /\ words_variant [false; true; true] v v') \/
  (means name "sctpmap" /\ words_variant [false; true] v v') \/
  (means name "setup" /\ exists t t', core v t /\ core v' t' /\ recased t t') \/
  (means name "ssrc-group" /\ words_variant [true] v v').
Definition attribute_variant (v v' : str) : Prop :=
  exists t t', core v t /\ core v' t' /\
    ((~ In 58 t /\ recased t t') \/
     exists name name' rest rest', cut 58 t name rest /\ cut 58 t' name' rest' /\
       recased name name' /\ keyword_variant name rest rest').

(** bandwidth: a known type. *)
Definition bandwidth_names : list string := ["AS"; "CT"; "TIAS"]%string.
Definition bandwidth_variant (v v' : str) : Prop :=
  exists t t' ty ty' n, core v t /\ core v' t' /\ cut 58 t ty n /\ cut 58 t' ty' n /\
    known_recased (fun ty => Exists (means_upper ty) bandwidth_names) ty ty'.

Definition value_variant (letter : N) (v v' : str) : Prop :=
  v = v' \/
  (letter = 97 /\ attribute_variant v v') \/
  (letter = 98 /\ bandwidth_variant v v') \/
  (* nettype, addrtype *)
  (letter = 99 /\ words_variant [true; true] v v') \/
  (* media, proto *)
  (letter = 109 /\ words_variant [true; false; true] v v') \/
  (letter = 111 /\ words_variant [false; false; false; true; true] v v').
Definition line_variant (x x' : str) : Prop :=
  x = x' \/ exists w1 c c' w2 v v', x = w1 ++ [c] ++ w2 ++ 61 :: v /\ x' = w1 ++ [c'] ++ w2 ++ 61 :: v' /\
    blank w1 /\ blank w2 /\ same_letter c c' /\ value_variant (ascii_lower c) v v'.

(** Results compared without the texts of errors: their kind and place. *)
Definition erase_detail (e : perr) : perr :=
  match e with
  | PLine _ _ n => PLine EIpAddress [] n
  | PUnsupported _ _ n => PUnsupported EIpAddress [] n
  | PSequence m n => PSequence m n
  end.
Definition erase_detail_line (r : res perr sdp_line) : res perr sdp_line :=
  match r with
  | Ok l => Ok {| l_number := l_number l; l_type := l_type l; l_text := [] |}
  | Err e => Err (erase_detail e)
  | Panic => Panic
  end.
Definition erase_detail_result (r : res perr session) : res perr session :=
  match r with
  | Ok s => Ok (with_warnings s (map erase_detail (s_warnings s)))
  | Err e => Err (erase_detail e)
  | Panic => Panic
  end.

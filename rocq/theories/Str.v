(** * Rust [str]/[String] as lists of Unicode scalar values

    Models the parts of the Rust standard library ([core::str], [alloc::str])
    that /repo/src uses.  The standard library is not part of /repo; each
    definition names the std function it stands for and one place in /repo that
    calls it.  A Rust [&str] is modelled as the list of its chars (code points,
    in [N]); the theorems quantify over all lists of [N], a superset of the
    valid ones. *)
From Coq Require Import List NArith ZArith Bool Ascii String.
Import ListNotations.
Open Scope N_scope.
Open Scope list_scope.

Notation char := N (only parsing).
Notation str := (list N) (only parsing).

(** String literals: [lit "abc"] is expanded at parsing time to the explicit
    list of code points [[97; 98; 99]]. *)
Definition of_string (s : string) : str := map N_of_ascii (list_ascii_of_string s).
Notation "'lit' s" :=
  (ltac:(let r := eval vm_compute in (of_string s%string) in exact r))
  (at level 0, s at level 0, only parsing).

(** Named ASCII characters used as separators. *)
Definition c_lf : char := 10.
Definition c_cr : char := 13.
Definition c_space : char := 32.
Definition c_star : char := 42.
Definition c_plus : char := 43.
Definition c_comma : char := 44.
Definition c_minus : char := 45.
Definition c_dot : char := 46.
Definition c_slash : char := 47.
Definition c_colon : char := 58.
Definition c_semi : char := 59.
Definition c_eq : char := 61.
Definition c_lbr : char := 91.
Definition c_rbr : char := 93.
Definition c_tilde : char := 126.
Definition crlf : str := [c_cr; c_lf].
Definition sp : str := [c_space].

(** [str == str] (byte equality = code point equality). *)
Fixpoint str_eqb (a b : str) : bool :=
  match a, b with
  | [], [] => true
  | x :: a', y :: b' => (x =? y) && str_eqb a' b'
  | _, _ => false
  end.

(** [char::is_whitespace]: the Unicode White_Space property
    (used by [trim] and [split_whitespace]). *)
Definition is_ws (c : char) : bool :=
  ((9 <=? c) && (c <=? 13)) || (c =? 32) || (c =? 133) || (c =? 160) ||
  (c =? 5760) || ((8192 <=? c) && (c <=? 8202)) || (c =? 8232) ||
  (c =? 8233) || (c =? 8239) || (c =? 8287) || (c =? 12288).

(** [str::len]: number of UTF-8 bytes (lib.rs:563, 831; attribute_type.rs:771). *)
Definition utf8_len (c : char) : N :=
  if c <? 128 then 1 else if c <? 2048 then 2 else if c <? 65536 then 3 else 4.
Definition byte_len (s : str) : N := fold_right (fun c n => utf8_len c + n) 0 s.

Definition is_empty (s : str) : bool := match s with [] => true | _ => false end.

(** [str::contains(char)] and [str::find(char).is_some()]. *)
Definition contains (c : char) (s : str) : bool := existsb (N.eqb c) s.

(** [str::starts_with(char)], [str::ends_with(char)]. *)
Definition starts_with_char (c : char) (s : str) : bool :=
  match s with x :: _ => x =? c | [] => false end.
Definition ends_with_char (c : char) (s : str) : bool := starts_with_char c (rev s).

(** [str::strip_prefix(&str)]; [str::starts_with(&str)] is its [is_some]. *)
Fixpoint strip_prefix (p s : str) : option str :=
  match p, s with
  | [], _ => Some s
  | x :: p', y :: s' => if x =? y then strip_prefix p' s' else None
  | _ :: _, [] => None
  end.

(** [str::trim]: strips leading and trailing White_Space. *)
Fixpoint trim_start (s : str) : str :=
  match s with
  | x :: s' => if is_ws x then trim_start s' else s
  | [] => []
  end.
Definition trim_end (s : str) : str := rev (trim_start (rev s)).
Definition trim (s : str) : str := trim_end (trim_start s).

(** Splitting at every char that satisfies [p]; never empty. *)
Fixpoint split_by (p : char -> bool) (s : str) : list str :=
  match s with
  | [] => [[]]
  | x :: s' =>
      if p x then [] :: split_by p s'
      else match split_by p s' with
           | h :: t => (x :: h) :: t
           | [] => [[x]]
           end
  end.

(** [str::split(char)]. *)
Definition split (c : char) (s : str) : list str := split_by (N.eqb c) s.

(** [str::split_whitespace]. *)
Definition split_whitespace (s : str) : list str :=
  filter (fun t => negb (is_empty t)) (split_by is_ws s).

(** First occurrence of [c]: what precedes it and what follows it. *)
Fixpoint split_once (c : char) (s : str) : option (str * str) :=
  match s with
  | [] => None
  | x :: s' =>
      if c =? x then Some ([], s')
      else match split_once c s' with
           | Some (a, b) => Some (x :: a, b)
           | None => None
           end
  end.

(** [str::splitn(n, char)]: at most [n] pieces, the last one is the rest. *)
Fixpoint splitn (n : nat) (c : char) (s : str) : list str :=
  match n with
  | O => []
  | S O => [s]
  | S n' =>
      match split_once c s with
      | Some (a, b) => a :: splitn n' c b
      | None => [s]
      end
  end.

(** [[String]::join(&str)]. *)
Fixpoint join (sep : str) (l : list str) : str :=
  match l with
  | [] => []
  | [x] => x
  | x :: l' => x ++ sep ++ join sep l'
  end.

(** [str::lines]: pieces terminated by LF (the last terminator is optional);
    a CR directly before the terminating LF is dropped (lib.rs:838). *)
Definition strip_cr (s : str) : str :=
  match rev s with
  | x :: r => if x =? c_cr then rev r else s
  | [] => s
  end.
Fixpoint lines_of (pieces : list str) : list str :=
  match pieces with
  | [] => []
  | [last] => if is_empty last then [] else [last]
  | x :: rest => strip_cr x :: lines_of rest
  end.
Definition lines (s : str) : list str := lines_of (split c_lf s).

(** [str::to_lowercase], [str::to_uppercase].

    SIMPLIFICATION.  The maps below are exact for every char whose image is
    ASCII only (ASCII letters, and U+212A for lowercase; U+00DF, U+0131, U+017F
    and the ligatures U+FB00..U+FB06 for uppercase).  Every other non-ASCII char
    has an image containing a non-ASCII char; the model leaves it unchanged.
    So comparing an image with an ASCII literal -- which is what /repo does
    everywhere except in [Address::eq] -- gives the same answer as in Rust. *)
Definition lower_char (c : char) : str :=
  if (65 <=? c) && (c <=? 90) then [c + 32]
  else if c =? 8490 then [107]
  else [c].
Definition upper_char (c : char) : str :=
  if (97 <=? c) && (c <=? 122) then [c - 32]
  else if c =? 223 then [83; 83]
  else if c =? 305 then [73]
  else if c =? 383 then [83]
  else if c =? 64256 then [70; 70]
  else if c =? 64257 then [70; 73]
  else if c =? 64258 then [70; 76]
  else if c =? 64259 then [70; 70; 73]
  else if c =? 64260 then [70; 70; 76]
  else if c =? 64261 then [83; 84]
  else if c =? 64262 then [83; 84]
  else [c].
Definition to_lower (s : str) : str := flat_map lower_char s.
Definition to_upper (s : str) : str := flat_map upper_char s.

(** [Vec<T>::contains] for strings and integers. *)
Definition mem_str (x : str) (l : list str) : bool := existsb (str_eqb x) l.
Definition mem_N (x : N) (l : list N) : bool := existsb (N.eqb x) l.

(** [format!] for messages: replaces each ["{}"] of the template, in order. *)
Fixpoint fmt_chars (t : str) (args : list str) : str :=
  match t with
  | 123 :: 125 :: t' =>
      match args with
      | a :: args' => a ++ fmt_chars t' args'
      | [] => 123 :: 125 :: fmt_chars t' []
      end
  | x :: t' => x :: fmt_chars t' args
  | [] => []
  end.
Definition fmt (template : string) (args : list str) : str :=
  fmt_chars (of_string template) args.
Arguments fmt : simpl never.

(** [{:?}] of a string: [char::escape_debug_ext] with the double quote escaped.
    SIMPLIFICATION: above U+009F every char is taken as printable (Rust escapes
    those missing in its table of printable chars); used only inside error texts. *)
Definition hex_digit_char (d : N) : char := if d <? 10 then 48 + d else 87 + d.
Definition debug_char (c : char) : str :=
  if c =? 0 then [92; 48]
  else if c =? 9 then [92; 116]
  else if c =? 10 then [92; 110]
  else if c =? 13 then [92; 114]
  else if (c =? 34) || (c =? 92) then [92; c]
  else if (c <? 32) || ((127 <=? c) && (c <=? 159)) then
    [92; 117; 123] ++ (if c <? 16 then [] else [hex_digit_char (c / 16)]) ++
    [hex_digit_char (c mod 16); 125]
  else [c].
Definition debug_str (s : str) : str := 34 :: flat_map debug_char s ++ [34].

(** Results with an explicit panic outcome: index out of range, slicing outside
    a string, [unwrap] on [None], [unreachable!], arithmetic overflow (debug
    builds). *)
Inductive res (E A : Type) : Type :=
| Ok (a : A)
| Err (e : E)
| Panic.
Arguments Ok {E A} a.
Arguments Err {E A} e.
Arguments Panic {E A}.

Definition bind {E A B} (x : res E A) (f : A -> res E B) : res E B :=
  match x with Ok a => f a | Err e => Err e | Panic => Panic end.
Notation "x <- e ;; k" := (bind e (fun x => k))
  (at level 61, e at next level, right associativity).
Notation "' p <- e ;; k" := (bind e (fun p => k))
  (at level 61, p pattern, e at next level, right associativity).

Definition res_map_err {E F A} (f : E -> F) (x : res E A) : res F A :=
  match x with Ok a => Ok a | Err e => Err (f e) | Panic => Panic end.
Definition is_ok {E A} (x : res E A) : bool := match x with Ok _ => true | _ => false end.
Definition ok {E A} (x : res E A) : option A := match x with Ok a => Some a | _ => None end.
(** [Option::ok_or_else]. *)
Definition ok_or {E A} (o : option A) (e : E) : res E A :=
  match o with Some a => Ok a | None => Err e end.

(** [v[i]]: panics when [i] is out of range. *)
Definition idx {E A} (l : list A) (i : nat) : res E A :=
  match nth_error l i with Some a => Ok a | None => Panic end.

(** [iter.map(f).collect::<Result<Vec<_>, _>>()]: stops at the first error. *)
Fixpoint mapM {E A B} (f : A -> res E B) (l : list A) : res E (list B) :=
  match l with
  | [] => Ok []
  | x :: l' => y <- f x ;; ys <- mapM f l' ;; Ok (y :: ys)
  end.

Definition option_eqb {A} (eqb : A -> A -> bool) (a b : option A) : bool :=
  match a, b with
  | Some x, Some y => eqb x y
  | None, None => true
  | _, _ => false
  end.

(** A [for] loop with [?] in its body. *)
Fixpoint foldM {E A B} (f : B -> A -> res E B) (l : list A) (acc : B) : res E B :=
  match l with
  | [] => Ok acc
  | x :: l' => acc' <- f acc x ;; foldM f l' acc'
  end.

(** [match s { "a" => x, "b" => y, _ => ... }] on string literals. *)
Fixpoint assoc_str {A} (s : str) (table : list (str * A)) : option A :=
  match table with
  | [] => None
  | (k, v) :: t => if str_eqb s k then Some v else assoc_str s t
  end.

(** * Specification vocabulary for the document-level properties
    (C01-C09, C37-C40, C43)

    Only definitions. *)
From Coq Require Import List NArith ZArith Bool Ascii String Sorting.Sorted.
From Verif Require Import Str Num Net Types Ext Show Session SpecApi.
Import ListNotations.
Open Scope list_scope.

(** ** Lines of a text *)
Definition blank (line : str) : Prop := Forall (fun c => is_ws c = true) line.

(** A text given by its lines: each with its line end, and possibly a last line
    without one (no last line if it is empty). *)
Inductive eol := LF | CRLF.
Definition eol_text (e : eol) : str := match e with LF => [10%N] | CRLF => [13%N; 10%N] end.
Record doc := { d_lines : list (str * eol); d_last : str }.
Definition doc_text (d : doc) : str :=
  flat_map (fun le => fst le ++ eol_text (snd le)) (d_lines d) ++ d_last d.
(** No line contains a line feed; a line ended by LF does not end with CR. *)
Definition line_ok (le : str * eol) : Prop :=
  ~ In 10%N (fst le) /\
  match snd le with LF => forall x, fst le <> x ++ [13%N] | CRLF => True end.
Definition doc_ok (d : doc) : Prop := Forall line_ok (d_lines d) /\ ~ In 10%N (d_last d).
Definition doc_lines (d : doc) : list str :=
  map fst (d_lines d) ++ (match d_last d with [] => [] | l => [l] end).
Definition blankb (line : str) : bool := forallb is_ws line.
Definition nonblank_lines (d : doc) : list str := filter (fun l => negb (blankb l)) (doc_lines d).

(** Results compared without the line numbers in errors and warnings. *)
Definition erase (e : perr) : perr :=
  match e with
  | PLine e l _ => PLine e l 0
  | PUnsupported e l _ => PUnsupported e l 0
  | PSequence m _ => PSequence m 0
  end.
Definition with_warnings (s : session) (w : list perr) : session :=
  {| s_version := s_version s; s_origin := s_origin s; s_session := s_session s;
     s_connection := s_connection s; s_bandwidth := s_bandwidth s; s_timing := s_timing s;
     s_attribute := s_attribute s; s_media := s_media s; s_warnings := w |}.
Definition erase_session (s : session) : session := with_warnings s (map erase (s_warnings s)).
Definition erase_result (r : res perr session) : res perr session :=
  match r with Ok s => Ok (erase_session s) | Err e => Err (erase e) | Panic => Panic end.

Definition is_unsupported (e : perr) : Prop := exists x l n, e = PUnsupported x l n.

Section WithExt.
Context {E : Ext}.

(** Line [i] of the text is not blank and parsing it alone gives [r]. *)
Definition line_result (sdp : str) (i : nat) (line : str) (r : res perr sdp_line) : Prop :=
  nth_error (lines sdp) i = Some line /\ ~ blank line /\ parse_sdp_line line i = r.

(** Reading the lines of a text from number [n] on: blank lines are skipped,
    every other line parses or is unsupported. *)
Inductive Reads : nat -> list str -> list sdp_type -> list perr -> Prop :=
| Reads_nil : forall n, Reads n [] [] []
| Reads_blank : forall n line rest ts ws, blank line ->
    Reads (S n) rest ts ws -> Reads n (line :: rest) ts ws
| Reads_line : forall n line rest ts ws l, ~ blank line ->
    parse_sdp_line line n = Ok l ->
    Reads (S n) rest ts ws -> Reads n (line :: rest) (l_type l :: ts) ws
| Reads_warning : forall n line rest ts ws e, ~ blank line ->
    parse_sdp_line line n = Err (PUnsupported e line n) ->
    Reads (S n) rest ts ws -> Reads n (line :: rest) ts (PUnsupported e line n :: ws).
End WithExt.

(** ** How lines make up a session (C08) *)
Definition bandwidths (l : list sdp_type) : list bandwidth :=
  flat_map (fun t => match t with TyBandwidth b => [b] | _ => [] end) l.
Definition attributes (l : list sdp_type) : list attr :=
  flat_map (fun t => match t with TyAttribute a => [a] | _ => [] end) l.
Definition connections (l : list sdp_type) : list connection :=
  flat_map (fun t => match t with TyConnection c => [c] | _ => [] end) l.
Definition timings (l : list sdp_type) : list timing :=
  flat_map (fun t => match t with TyTiming x => [x] | _ => [] end) l.
(** The last element, if any. *)
Definition last_of {A} (l : list A) : option A := hd_error (rev l).

Definition session_item (t : sdp_type) : Prop :=
  match t with
  | TyAttribute a => In (sdp_name a) session_names
  | TyBandwidth _ | TyTiming _ | TyConnection _ => True
  | _ => False
  end.
(** dtls-message is accepted in a media section and dropped. *)
Definition media_item (t : sdp_type) : Prop :=
  match t with
  | TyAttribute a => In (sdp_name a) media_names \/ sdp_name a = "dtls-message"%string
  | TyBandwidth _ | TyConnection _ => True
  | _ => False
  end.

Definition section := (media_line * list sdp_type)%type.
Definition section_lines (s : section) : list sdp_type := TyMedia (fst s) :: snd s.
Definition section_ok (s : section) : Prop :=
  Forall media_item (snd s) /\ (List.length (connections (snd s)) <= 1)%nat.
Definition section_media (s : section) : media :=
  {| m_media := fst s; m_connection := hd_error (connections (snd s));
     m_bandwidth := bandwidths (snd s);
     m_attribute := filter (not_named "dtls-message") (attributes (snd s)) |}.

(** The name of the session: absent if blank, otherwise without the whitespace
    around it. *)
Definition session_name (text : str) (r : option str) : Prop :=
  match r with
  | None => blank text
  | Some n => exists w1 w2, text = w1 ++ n ++ w2 /\ blank w1 /\ blank w2 /\
                            (exists c x, n = c :: x /\ is_ws c = false) /\
                            (exists c x, n = x ++ [c] /\ is_ws c = false)
  end.

Definition Assembles (l : list sdp_type) (s : session) : Prop :=
  exists (name : str) (head : list sdp_type) (secs : list section),
    l = TyVersion (s_version s) :: TyOrigin (s_origin s) :: TySession name ::
        head ++ flat_map section_lines secs /\
    session_name name (s_session s) /\
    Forall session_item head /\ Forall section_ok secs /\
    s_bandwidth s = bandwidths head /\ s_attribute s = attributes head /\
    s_timing s = last_of (timings head) /\ s_connection s = last_of (connections head) /\
    s_media s = map section_media secs.

(** ** Structural rules (C06) *)
Definition present {A} (o : option A) : Prop := exists x, o = Some x.
Definition has (n : string) (l : list attr) : Prop := exists a, In a l /\ sdp_name a = n.
Definition format_listed (f : format_list) (n : N) : Prop :=
  match f with Integers l => In n l | Strings l => In (show_N n) l end.
Definition rid_defined (l : list attr) (d : single_direction) (id : str) : Prop :=
  exists r, In (ARid r) l /\ rid_direction r = d /\ rid_id r = id.
Record media_rules (m : media) : Prop := {
  rule_mux : has "rtcp-mux-only" (m_attribute m) -> has "rtcp-mux" (m_attribute m);
  rule_rid : forall r n, In (ARid r) (m_attribute m) -> In n (rid_formats r) ->
    format_listed (ml_formats (m_media m)) n;
  rule_simulcast : forall before sc after,
    m_attribute m = before ++ ASimulcast sc :: after -> ~ has "simulcast" before ->
    (forall v i, In v (sim_send sc) -> In i v -> rid_defined (m_attribute m) Send (sid_id i)) /\
    (forall v i, In v (sim_receive sc) -> In i v -> rid_defined (m_attribute m) Recv (sid_id i))
}.
Record structural (s : session) : Prop := {
  rule_timing : present (s_timing s);
  rule_connection : present (s_connection s) \/ Forall (fun m => present (m_connection m)) (s_media s);
  rule_extmap : ~ (has "extmap" (s_attribute s) /\
                   Exists (fun m => has "extmap" (m_attribute m)) (s_media s));
  rule_media : Forall media_rules (s_media s)
}.

(** ** Whitespace around the parts of a line (C39) *)
Definition same_type (a b : sdp_type) : Prop :=
  a = b \/ exists x y, a = TySession x /\ b = TySession y /\ trim x = trim y.
(** The error inside a line error. *)
Definition inner (e : perr) : option (bool * ierr) :=
  match e with
  | PLine e _ _ => Some (false, e)
  | PUnsupported e _ _ => Some (true, e)
  | PSequence _ _ => None
  end.

(** A line that only differs by whitespace around its type and its value. *)
Definition padded (x y : str) : Prop :=
  x = y \/ exists w1 t w2 w3 v w4, ~ In 61%N t /\
    blank w1 /\ blank w2 /\ blank w3 /\ blank w4 /\
    x = w1 ++ t ++ w2 ++ [61%N] ++ w3 ++ v ++ w4 /\ y = t ++ [61%N] ++ v.
(** Results compared without the line texts in errors and warnings. *)
Definition erase_text (e : perr) : perr :=
  match e with
  | PLine e _ n => PLine e [] n
  | PUnsupported e _ n => PUnsupported e [] n
  | PSequence m n => PSequence m n
  end.
Definition erase_text_result (r : res perr session) : res perr session :=
  match r with
  | Ok s => Ok (with_warnings s (map erase_text (s_warnings s)))
  | Err e => Err (erase_text e)
  | Panic => Panic
  end.

(** ** Unknown attributes (C37) *)
Definition ascii_lower (c : N) : N := if (65 <=? c)%N && (c <=? 90)%N then (c + 32)%N else c.
Definition unknown_name (name : str) : Prop :=
  name <> [] /\ Forall (fun c => is_ws c = false /\ c <> 58%N) name /\
  forall t : attr_type, map ascii_lower name <> of_string (type_name t).
(** The line number of a warning moved down by one. *)
Definition bump (e : perr) : perr :=
  match e with
  | PLine e l n => PLine e l (S n)
  | PUnsupported e l n => PUnsupported e l (S n)
  | PSequence m n => PSequence m (S n)
  end.

(** ** Types of lines (C38, C40) *)
Definition is_media (t : sdp_type) : Prop := exists m, t = TyMedia m.
Definition line_is_media {E : Ext} (line : str) : Prop :=
  ~ blank line /\ exists l, parse_sdp_line line 0 = Ok l /\ is_media (l_type l).
(** The letters of the line types that are implemented. *)
Definition known_types : list N := lit "abcmostv".
Definition has_type (line : str) (c : N) : Prop :=
  exists w1 w2 v, line = w1 ++ [c] ++ w2 ++ [61%N] ++ v /\ blank w1 /\ blank w2 /\ is_ws c = false /\ c <> 61%N.

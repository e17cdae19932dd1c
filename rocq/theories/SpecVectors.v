(** * What the public loops over lines do, for C74 *)
From Coq Require Import List NArith Ascii String.
From Verif Require Import Str Types Ext Show SpecApi SpecDoc SpecVal SpecSeq.
Import ListNotations.
Open Scope list_scope.

Section WithExt.
Context {E : Ext}.

Definition line_types (ls : list sdp_line) : list sdp_type := map l_type ls.

(** A session with these lines read into it. *)
Definition with_lines (s : session) (ts : list sdp_type) : session :=
  {| s_version := s_version s; s_origin := s_origin s; s_session := s_session s;
     s_connection := match last_of (connections ts) with Some c => Some c | None => s_connection s end;
     s_bandwidth := s_bandwidth s ++ bandwidths ts;
     s_timing := match last_of (timings ts) with Some t => Some t | None => s_timing s end;
     s_attribute := s_attribute s ++ attributes ts;
     s_media := s_media s; s_warnings := s_warnings s |}.

(** A line that cannot be read into a session, and what is said of it. *)
Definition refused (t : sdp_type) (msg : str) : Prop :=
  misplaced_in_session t msg \/ (is_media t /\ msg = lit "media line not allowed in session parser").

(** From a session and lines: the session after, the lines left, the result. *)
Inductive session_reads (s : session) : list sdp_line -> session -> list sdp_line -> res perr unit -> Prop :=
| reads_all : forall ls, Forall session_item (line_types ls) ->
    session_reads s ls (with_lines s (line_types ls)) [] (Ok tt)
| reads_until : forall good l rest msg, Forall session_item (line_types good) -> refused (l_type l) msg ->
    session_reads s (good ++ l :: rest) (with_lines s (line_types good)) rest (Err (PSequence msg (l_number l))).

(** From lines: the lines left and the sections. *)
Inductive media_reads : list sdp_line -> list sdp_line -> res perr (list media) -> Prop :=
| none : media_reads [] [] Panic
| no_section : forall l rest, ~ is_media (l_type l) ->
    media_reads (l :: rest) rest (Err (PSequence (lit "first line in media section needs to be a media line") (l_number l)))
| all_sections : forall ls secs, line_types ls = flat_map section_lines secs -> secs <> [] -> Forall section_ok secs ->
    media_reads ls [] (Ok (map section_media secs))
| until : forall before secs m ml cur l rest msg, line_types before = flat_map section_lines secs -> Forall section_ok secs ->
    l_type m = TyMedia ml -> section_ok (ml, line_types cur) -> misplaced_in_media (line_types cur) (l_type l) msg ->
    media_reads (before ++ m :: cur ++ l :: rest) rest (Err (PSequence msg (l_number l))).

End WithExt.

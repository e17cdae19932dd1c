(** * The two public loops over a vector of lines, with what they leave in it
    (lib.rs:306-338, media_type.rs:409-476).  Only definitions.

    [parse_session_vector] and [parse_media_vector] take [&mut Vec<SdpLine>] and
    remove the first line before they look at it, so a caller that passes its own
    vector sees which lines are left.  [Session.v] and [Media.v] have the same
    loops without the vector, as [parse_sdp] drops it. *)
From Coq Require Import List NArith Bool Ascii String.
From Verif Require Import Str Num Net Types Ext Show Address AttrParse Media Session.
Import ListNotations.
Open Scope N_scope.
Open Scope list_scope.

Section WithExt.
Context {E : Ext}.

(** [SdpSession::parse_session_vector] (lib.rs:306-338): the session, the lines
    left and the result. *)
Fixpoint session_vector (s : session) (lines : list sdp_line) : session * list sdp_line * res perr unit :=
  match lines with
  | [] => (s, [], Ok tt)
  | line :: lines =>
      match l_type line with
      | TyAttribute a =>
          match session_add_attribute a s with
          | (s, Ok _) => session_vector s lines
          | (s, Err e) => (s, lines, Err (PSequence (show_ierr e) (l_number line)))
          | (s, Panic) => (s, lines, Panic)
          end
      | TyBandwidth b => session_vector (session_add_bandwidth b s) lines
      | TyTiming t => session_vector (session_set_timing t s) lines
      | TyConnection c => session_vector (session_set_connection c s) lines
      | TyOrigin _ | TySession _ | TyVersion _ =>
          (s, lines, Err (PSequence (fmt "version, origin or session at wrong level" []) (l_number line)))
      | TyMedia _ =>
          (s, lines, Err (PSequence (fmt "media line not allowed in session parser" []) (l_number line)))
      end
  end.

(** The [while] loop of [parse_media_vector] (media_type.rs:424-476). *)
Fixpoint media_vector_loop (done : list media) (cur : media) (lines : list sdp_line)
  : list sdp_line * res perr (list media) :=
  match lines with
  | [] => ([], Ok (done ++ [cur]))
  | line :: lines =>
      match l_type line with
      | TyConnection c =>
          match m_connection cur with
          | Some _ => (lines, Err (PSequence (fmt "connection type already exists at this media level" []) (l_number line)))
          | None => media_vector_loop done (set_media_connection c cur) lines
          end
      | TyBandwidth b => media_vector_loop done (add_bandwidth b cur) lines
      | TyAttribute a =>
          match media_line_attribute a cur with
          | (m, Ok _) => media_vector_loop done m lines
          | (_, Err e) => (lines, Err (PSequence (show_ierr e) (l_number line)))
          | (_, Panic) => (lines, Panic)
          end
      | TyMedia v => media_vector_loop (done ++ [cur]) (media_new v) lines
      | TyOrigin _ | TySession _ | TyTiming _ | TyVersion _ =>
          (lines, Err (PSequence (fmt "invalid type in media section" []) (l_number line)))
      end
  end.
(** [parse_media_vector] (media_type.rs:409-423). *)
Definition media_vector (lines : list sdp_line) : list sdp_line * res perr (list media) :=
  match lines with
  | [] => ([], Panic)
  | line :: lines =>
      match l_type line with
      | TyMedia v => media_vector_loop [] (media_new v) lines
      | _ => (lines, Err (PSequence (fmt "first line in media section needs to be a media line" []) (l_number line)))
      end
  end.

End WithExt.

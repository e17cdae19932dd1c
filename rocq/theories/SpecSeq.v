(** * Specification vocabulary for errors about the order of lines (C66).  Only definitions. *)
From Coq Require Import List Arith NArith Ascii String.
From Verif Require Import Str Num Net Types Ext Show SpecApi SpecDoc SpecVal SpecUnsup.
Import ListNotations.
Open Scope nat_scope.
Open Scope list_scope.

Section WithExt.
Context {E : Ext}.

(** The lines that mean something, with their numbers in the text, and the
    numbers of the unsupported lines. *)
Inductive kept : nat -> list str -> list (nat * sdp_type) -> list nat -> Prop :=
| kept_nil : forall n, kept n [] [] []
| kept_blank : forall n line rest l us, blank line -> kept (S n) rest l us -> kept n (line :: rest) l us
| kept_line : forall n line rest t l us, ~ blank line -> line_means line t ->
    kept (S n) rest l us -> kept n (line :: rest) ((n, t) :: l) us
| kept_unsupported : forall n line rest l us, ~ blank line -> line_unsupported line ->
    kept (S n) rest l us -> kept n (line :: rest) l (n :: us).

(** A line that is out of place before the first m= line, and what is said of it. *)
Inductive misplaced_in_session : sdp_type -> str -> Prop :=
| session_type : forall t, (exists v, t = TyVersion v) \/ (exists o, t = TyOrigin o) \/ (exists n, t = TySession n) ->
    misplaced_in_session t (lit "version, origin or session at wrong level")
| session_level : forall a, ~ In (sdp_name a) session_names ->
    misplaced_in_session (TyAttribute a) (lit "Parsing error: " ++ show_attr a ++ lit " not allowed at session level").
(** A line that is out of place in a media section with these lines before it. *)
Inductive misplaced_in_media (before : list sdp_type) : sdp_type -> str -> Prop :=
| media_type : forall t, (exists v, t = TyVersion v) \/ (exists o, t = TyOrigin o) \/ (exists n, t = TySession n) \/ (exists x, t = TyTiming x) ->
    misplaced_in_media before t (lit "invalid type in media section")
| media_connection : forall c, connections before <> [] ->
    misplaced_in_media before (TyConnection c) (lit "connection type already exists at this media level")
| media_level : forall a, ~ In (sdp_name a) media_names -> sdp_name a <> "dtls-message"%string ->
    misplaced_in_media before (TyAttribute a) (lit "Parsing error: " ++ show_attr a ++ lit " not allowed at media level").

(** The first rule a media section breaks. *)
Inductive section_breaks (m : media) : str -> Prop :=
| breaks_mux : has "rtcp-mux-only" (m_attribute m) -> ~ has "rtcp-mux" (m_attribute m) ->
    section_breaks m (lit "rtcp-mux-only media sections must also contain the rtcp-mux attribute")
| breaks_rid : forall r n, (has "rtcp-mux-only" (m_attribute m) -> has "rtcp-mux" (m_attribute m)) ->
    In (ARid r) (m_attribute m) -> In n (rid_formats r) -> ~ format_listed (ml_formats (m_media m)) n ->
    section_breaks m (lit "Rid pts must be declared in the media section")
| breaks_simulcast : forall before sc after v i,
    (has "rtcp-mux-only" (m_attribute m) -> has "rtcp-mux" (m_attribute m)) ->
    (forall r n, In (ARid r) (m_attribute m) -> In n (rid_formats r) -> format_listed (ml_formats (m_media m)) n) ->
    m_attribute m = before ++ ASimulcast sc :: after -> ~ has "simulcast" before -> In i v ->
    In v (sim_send sc) /\ ~ rid_defined (m_attribute m) Send (sid_id i) \/
    In v (sim_receive sc) /\ ~ rid_defined (m_attribute m) Recv (sid_id i) ->
    section_breaks m (lit "Simulcast RIDs must be defined in any rid attribute").
(** The first rule a session breaks. *)
Inductive session_breaks (s : session) : str -> Prop :=
| breaks_timing : s_timing s = None -> session_breaks s (lit "Missing timing type at session level")
| breaks_connection : forall m, s_timing s <> None -> s_connection s = None -> In m (s_media s) -> m_connection m = None ->
    session_breaks s (lit "Without connection type at session level all media sections must have connection types")
| breaks_extmap : forall m, s_timing s <> None ->
    (s_connection s = None -> forall x, In x (s_media s) -> m_connection x <> None) ->
    has "extmap" (s_attribute s) -> In m (s_media s) -> has "extmap" (m_attribute m) ->
    session_breaks s (lit "Extmap can't be define at session and media level")
| breaks_section : forall before m after msg, s_timing s <> None ->
    (s_connection s = None -> forall x, In x (s_media s) -> m_connection x <> None) ->
    (has "extmap" (s_attribute s) -> forall x, In x (s_media s) -> ~ has "extmap" (m_attribute x)) ->
    s_media s = before ++ m :: after -> Forall media_rules before -> section_breaks m msg ->
    session_breaks s msg.

(** The first rule these lines break, and the line number given with it. *)
Definition types (l : list (nat * sdp_type)) : list sdp_type := map snd l.
Definition opening (h : list (nat * sdp_type)) : Prop :=
  exists v o n, types h = [TyVersion v; TyOrigin o; TySession n].
Definition sections (l : list (nat * sdp_type)) : Prop :=
  exists secs, types l = flat_map section_lines secs /\ Forall section_ok secs.
Inductive broken (l : list (nat * sdp_type)) : str -> nat -> Prop :=
| few_lines : List.length l < 4 -> broken l (lit "SDP neeeds at least 4 lines") 0
| not_version : forall i t rest, 4 <= List.length l -> l = (i, t) :: rest -> (forall v, t <> TyVersion v) ->
    broken l (lit "first line needs to be version number") 0
| not_origin : forall i v j t rest, 4 <= List.length l -> l = (i, TyVersion v) :: (j, t) :: rest -> (forall o, t <> TyOrigin o) ->
    broken l (lit "second line needs to be origin") 1
| not_session : forall i v j o k t rest, 4 <= List.length l ->
    l = (i, TyVersion v) :: (j, TyOrigin o) :: (k, t) :: rest -> (forall n, t <> TySession n) ->
    broken l (lit "third line needs to be session") 2
| in_session : forall h pre i t post msg, opening h -> l = h ++ pre ++ (i, t) :: post ->
    Forall session_item (types pre) -> misplaced_in_session t msg -> broken l msg i
| in_media : forall h pre secs k ml cur i t post msg, opening h ->
    l = h ++ pre ++ secs ++ (k, TyMedia ml) :: cur ++ (i, t) :: post ->
    Forall session_item (types pre) -> sections secs -> section_ok (ml, types cur) ->
    misplaced_in_media (types cur) t msg -> broken l msg i
| as_a_whole : forall s msg, 4 <= List.length l -> Assembles (types l) s -> session_breaks s msg -> broken l msg 0.

(** The rules about the text as a whole, for which no line is given. *)
Definition whole_rules : list str :=
  [ lit "SDP neeeds at least 4 lines"; lit "first line needs to be version number"; lit "second line needs to be origin";
    lit "third line needs to be session"; lit "Missing timing type at session level";
    lit "Without connection type at session level all media sections must have connection types";
    lit "Extmap can't be define at session and media level";
    lit "rtcp-mux-only media sections must also contain the rtcp-mux attribute";
    lit "Rid pts must be declared in the media section"; lit "Simulcast RIDs must be defined in any rid attribute" ].
End WithExt.

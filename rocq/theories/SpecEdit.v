(** * Editing texts (C58).  Only definitions. *)
From Coq Require Import List NArith Bool Ascii String.
From Verif Require Import Str Num Net Types Ext Media Session SpecApi SpecDoc SpecOrder.
Import ListNotations.
Open Scope N_scope.
Open Scope list_scope.

(** Sessions that agree but for the line numbers of warnings. *)
Definition agree (s s' : session) : Prop :=
  with_warnings s [] = with_warnings s' [] /\ map said (s_warnings s) = map said (s_warnings s').

(** Kinds of lines. *)
Definition attribute_named (n : string) (t : sdp_type) : bool :=
  match t with TyAttribute a => String.eqb (sdp_name a) n | _ => false end.
Definition a_connection (t : sdp_type) : bool := match t with TyConnection _ => true | _ => false end.
Definition a_codec (t : sdp_type) : bool :=
  existsb (fun n => attribute_named n t) ["rtpmap"; "fmtp"; "rtcp-fb"; "sctpmap"; "sctp-port"]%string.

(** Changes of media lines. *)
Definition line_port (l : media_line) (p : N) : media_line :=
  {| ml_media := ml_media l; ml_port := p; ml_port_count := ml_port_count l; ml_proto := ml_proto l; ml_formats := ml_formats l |}.
Definition line_codec (l : media_line) (pt : N) : media_line :=
  with_fmts l (match ml_formats l with Integers x => Integers (x ++ [pt]) | Strings x => Strings (x ++ [show_N pt]) end).
Definition line_no_codec (l : media_line) : media_line :=
  with_fmts l (match ml_formats l with Integers x => Integers [] | Strings x => Strings [] end).
Definition by_name (p : protocol_value) : bool := match p with UdpDtlsSctp | TcpDtlsSctp => true | _ => false end.
Definition line_datachannel (l : media_line) (name : str) (port : N) : media_line :=
  {| ml_media := Application; ml_port := ml_port l; ml_port_count := ml_port_count l; ml_proto := ml_proto l;
     ml_formats := if by_name (ml_proto l) then Strings [name] else Integers [port] |}.
Definition datachannel_attr (l : media_line) (port streams : N) : attr :=
  if by_name (ml_proto l) then ASctpPort port else ASctpmap {| sm_port := port; sm_channels := streams |}.
Definition new_line (mt : media_value) (port : N) (proto : protocol_value) : media_line :=
  {| ml_media := mt; ml_port := port; ml_port_count := 1; ml_proto := proto; ml_formats := Integers [] |}.

Section WithExt.
Context {E : Ext}.
Definition says (line : str) (t : sdp_type) : Prop :=
  ~ blank line /\ exists l, parse_sdp_line line 0 = Ok l /\ l_type l = t.

(** A document in the making: the lines before the first m= line, and what the
    m= line of each section is to say, with the lines that follow it. *)
Definition draft_section := (media_line * list str)%type.
Definition draft := (list str * list draft_section)%type.
Inductive sections_written : list draft_section -> list str -> Prop :=
| no_sections : sections_written [] []
| section_written line l body secs rest : says line (TyMedia l) -> Forall (fun y => ~ line_is_media y) body ->
    sections_written secs rest -> sections_written ((l, body) :: secs) (line :: body ++ rest).
Definition written (sdp : str) (d : draft) : Prop :=
  exists rest, lines sdp = fst d ++ rest /\ Forall (fun y => ~ line_is_media y) (fst d) /\ sections_written (snd d) rest.

(** Lines of one kind are deleted; those that say nothing are kept. *)
Inductive deletes (p : sdp_type -> bool) : list str -> list str -> Prop :=
| deletes_nil : deletes p [] []
| deletes_line line t x x' : says line t -> p t = true -> deletes p x x' -> deletes p (line :: x) x'
| deletes_not line x x' : (forall t, says line t -> p t = false) -> deletes p x x' -> deletes p (line :: x) (line :: x').

(** What the calls on a media section do to its lines. *)
Inductive media_edit : media_op -> draft_section -> draft_section -> Prop :=
| edit_port p l x : media_edit (OpSetPort p) (l, x) (line_port l p, x)
| edit_bandwidth b l x line : says line (TyBandwidth b) -> media_edit (OpAddBandwidth b) (l, x) (l, x ++ [line])
| edit_connection c l x x' line : deletes a_connection x x' -> says line (TyConnection c) ->
    media_edit (OpSetConnection c) (l, x) (l, x' ++ [line])
| edit_attribute a l x line : In (sdp_name a) media_names -> says line (TyAttribute a) ->
    media_edit (OpAddAttribute a) (l, x) (l, x ++ [line])
| edit_no_attribute a l x : ~ In (sdp_name a) media_names -> media_edit (OpAddAttribute a) (l, x) (l, x)
| edit_set a l x x' line : In (sdp_name a) media_names -> deletes (attribute_named (sdp_name a)) x x' -> says line (TyAttribute a) ->
    media_edit (OpSetAttribute a) (l, x) (l, x' ++ [line])
| edit_no_set a l x x' : ~ In (sdp_name a) media_names -> deletes (attribute_named (sdp_name a)) x x' ->
    media_edit (OpSetAttribute a) (l, x) (l, x')
| edit_remove t l x x' : deletes (attribute_named (type_name t)) x x' -> media_edit (OpRemoveAttribute t) (l, x) (l, x')
| edit_remove_codecs l x x' : deletes a_codec x x' -> media_edit OpRemoveCodecs (l, x) (line_no_codec l, x')
| edit_add_codec r l x line : says line (TyAttribute (ARtpmap r)) ->
    media_edit (OpAddCodec r) (l, x) (line_codec l (rm_payload_type r), x ++ [line])
| edit_datachannel name port streams l x x' :
    media_edit (OpSetAttribute (datachannel_attr l port streams)) (l, x) (l, x') ->
    media_edit (OpAddDatachannel name port streams 0) (l, x) (line_datachannel l name port, x')
| edit_sized_datachannel name port streams size l x x' x'' : 0 < size ->
    media_edit (OpSetAttribute (datachannel_attr l port streams)) (l, x) (l, x') ->
    media_edit (OpSetAttribute (AMaxMessageSize size)) (l, x') (l, x'') ->
    media_edit (OpAddDatachannel name port streams size) (l, x) (line_datachannel l name port, x'').
(** A section of its own. *)
Definition section_says (x : draft_section) (m : media) : Prop :=
  exists ts, Forall2 says (snd x) ts /\ section_ok (fst x, ts) /\ m = section_media (fst x, ts).
(** What the calls on a session do to a document. *)
Inductive edit : session_op -> draft -> draft -> Prop :=
| edit_session_connection c h d line : says line (TyConnection c) -> edit (OpSessionConnection c) (h, d) (h ++ [line], d)
| edit_session_bandwidth b h d line : says line (TyBandwidth b) -> edit (OpSessionBandwidth b) (h, d) (h ++ [line], d)
| edit_session_timing t h d line : says line (TyTiming t) -> edit (OpSessionTiming t) (h, d) (h ++ [line], d)
| edit_session_attribute a h d line : In (sdp_name a) session_names -> says line (TyAttribute a) ->
    edit (OpSessionAttribute a) (h, d) (h ++ [line], d)
| edit_no_session_attribute a h d : ~ In (sdp_name a) session_names -> edit (OpSessionAttribute a) (h, d) (h, d)
| edit_session_lines l h d ls : Forall session_item (map l_type l) -> Forall2 says ls (map l_type l) ->
    edit (OpSessionLines l) (h, d) (h ++ ls, d)
| edit_extend ms h d xs : Forall2 section_says xs ms -> edit (OpExtendMedia ms) (h, d) (h, d ++ xs)
| edit_add_media mt a port proto addr h d line1 line2 : In (sdp_name a) media_names ->
    says line1 (TyAttribute a) -> says line2 (TyConnection {| conn_address := addr; conn_ttl := None; conn_amount := None |}) ->
    edit (OpAddMedia mt a port proto addr) (h, d) (h, d ++ [(new_line mt port proto, [line1; line2])])
| edit_no_media mt a port proto addr h d : ~ In (sdp_name a) media_names -> edit (OpAddMedia mt a port proto addr) (h, d) (h, d)
| edit_section i op h pre x post x' : List.length pre = i -> media_edit op x x' ->
    edit (OpOnMedia i op) (h, pre ++ x :: post) (h, pre ++ x' :: post)
| edit_no_section i op h d : (List.length d <= i)%nat -> edit (OpOnMedia i op) (h, d) (h, d).
Inductive edits : list session_op -> draft -> draft -> Prop :=
| edits_none d : edits [] d d
| edits_more op ops d1 d2 d3 : edit op d1 d2 -> edits ops d2 d3 -> edits (op :: ops) d1 d3.
(** Where a document starts. *)
Definition start (h : list str) (v : N) (o : origin) (name : str) : Prop :=
  Forall2 says h [TyVersion v; TyOrigin o; TySession name].
End WithExt.

(** * Theorems about whole documents: C02-C09, C37-C40, C43

    The vocabulary ([blank], [line_result], [Reads], [Assembles], [structural],
    [section_ok], [doc], [padded], [erase_result], ...) is in SpecDoc.v. *)
From Coq Require Import List NArith ZArith Bool Ascii String Sorting.Sorted.
From Verif Require Import Str Num Net Types Ext Show Media Session SpecApi SpecDoc PDoc PDoc2 PDoc3 PDoc4.
Import ListNotations.
Open Scope N_scope.
Open Scope list_scope.

(** The document used in the examples. *)
Definition text (l : list str) : str := flat_map (fun x => x ++ [13; 10]) l.
Definition ex_head : list str :=
  [lit "v=0"; lit "o=- 1 2 IN IP6 ::1"; lit "s=-"; lit "t=0 0"; lit "c=IN IP6 ::1"].
Definition ex_audio : list str := [lit "m=audio 9 RTP/AVP 0"; lit "a=sendrecv"].
Definition ex_video : list str := [lit "m=video 9 RTP/AVP 97"; lit "b=AS:4"; lit "a=rtcp-mux"].
Definition accepts (E : Ext) (sdp : str) (b : bool) (f : session -> bool) : bool :=
  match parse_sdp sdp b with Ok s => f s | _ => false end.

(** ** C02: the two modes *)
Theorem C02_strict_iff_no_warning : forall (E : Ext) (sdp : str) (s : session),
  parse_sdp sdp true = Ok s <-> parse_sdp sdp false = Ok s /\ s_warnings s = [].
Proof. exact @strict_iff. Qed.
Print Assumptions C02_strict_iff_no_warning.

Theorem C02_strict_first_warning : forall (E : Ext) (sdp : str) (s : session) w ws,
  parse_sdp sdp false = Ok s -> s_warnings s = w :: ws -> parse_sdp sdp true = Err w.
Proof. exact @strict_first_warning. Qed.
Print Assumptions C02_strict_first_warning.

Theorem C02_same_without_unsupported : forall (E : Ext) (sdp : str),
  (forall i line e, line_result sdp i line (Err e) -> ~ is_unsupported e) ->
  parse_sdp sdp true = parse_sdp sdp false.
Proof. exact @modes_equal. Qed.
Print Assumptions C02_same_without_unsupported.

Example C02_example : forall E : Ext,
  accepts E (text (ex_head ++ ex_audio)) true (fun s => Nat.eqb (List.length (s_media s)) 1) = true /\
  accepts E (text (ex_head ++ ex_audio ++ [lit "a=foo"])) false
    (fun s => Nat.eqb (List.length (s_warnings s)) 1) = true /\
  (exists e, parse_sdp (text (ex_head ++ ex_audio ++ [lit "a=foo"])) true = Err (PUnsupported e (lit "a=foo") 7)).
Proof. intros E. split; [|split]; [vm_compute; reflexivity..|eexists; vm_compute; reflexivity]. Qed.

(** ** C03: the warnings are those of the individual lines *)
Theorem C03_warnings : forall (E : Ext) (sdp : str) (s : session),
  parse_sdp sdp false = Ok s ->
  exists idxs, StronglySorted lt idxs /\
    Forall2 (fun i w => exists line e, line_result sdp i line (Err w) /\ w = PUnsupported e line i)
      idxs (s_warnings s) /\
    (forall i line, nth_error (lines sdp) i = Some line -> ~ In i idxs ->
       blank line \/ exists l, parse_sdp_line line i = Ok l).
Proof. exact @warnings_exact. Qed.
Print Assumptions C03_warnings.

Example C03_example : forall E : Ext,
  exists s e1 e2, parse_sdp (text (ex_head ++ [lit "a=x"; []] ++ ex_audio ++ [lit "a=y:1 "])) false = Ok s /\
    s_warnings s = [PUnsupported e1 (lit "a=x") 5; PUnsupported e2 (lit "a=y:1 ") 9].
Proof. intros E. do 3 eexists. split; vm_compute; reflexivity. Qed.

(** ** C04: which error is reported *)
Theorem C04_reported_error : forall E : Ext, ext_total E ->
  forall sdp, (Z.of_nat (List.length sdp) < 2 ^ 31)%Z -> 51 <= byte_len sdp ->
  (* strict: the first unsupported line *)
  (forall i line e, line_result sdp i line (Err e) -> is_unsupported e ->
     (forall j line' e', (j < i)%nat -> line_result sdp j line' (Err e') -> ~ is_unsupported e') ->
     parse_sdp sdp true = Err e) /\
  (* otherwise: the last line that fails to parse *)
  (forall b i line e, line_result sdp i line (Err e) -> ~ is_unsupported e ->
     (forall j line' e', (i < j)%nat -> line_result sdp j line' (Err e') -> is_unsupported e') ->
     (b = true -> forall j line' e', line_result sdp j line' (Err e') -> ~ is_unsupported e') ->
     parse_sdp sdp b = Err e) /\
  (* otherwise: a Sequence error, if any *)
  (forall b, (forall i line e, line_result sdp i line (Err e) -> is_unsupported e /\ b = false) ->
     (exists s, parse_sdp sdp b = Ok s) \/ (exists m n, parse_sdp sdp b = Err (PSequence m n))).
Proof.
  intros E T sdp L B. split; [exact (first_warning T sdp L B)|].
  split; [exact (last_hard T sdp L B)|exact (sequence_only T sdp L B)].
Qed.
Print Assumptions C04_reported_error.

(** The error of a line carries its text and its number. *)
Theorem C04_line_errors : forall (E : Ext) line n e, parse_sdp_line line n = Err e ->
  (exists x, e = PUnsupported x line n) \/ (exists x, e = PLine x line n).
Proof. exact @line_err. Qed.
Print Assumptions C04_line_errors.

Theorem C04_too_short : forall (E : Ext) sdp b, byte_len sdp < 51 ->
  exists e, parse_sdp sdp b = Err (PLine e sdp 0).
Proof. exact @parse_short. Qed.
Print Assumptions C04_too_short.

Example C04_example : forall E : Ext,
  let sdp := text (ex_head ++ [lit "t=x"; lit "a=foo"; lit "t=y"; lit "a=bar"] ++ ex_audio) in
  (exists e, parse_sdp sdp true = Err (PUnsupported e (lit "a=foo") 6)) /\
  (exists e, parse_sdp sdp false = Err (PLine e (lit "t=y") 7)).
Proof. intros E. split; eexists; vm_compute; reflexivity. Qed.

(** ** C05: line ends and blank lines *)
Theorem C05_line_ends_and_blank_lines : forall (E : Ext) (d1 d2 : doc) (b : bool),
  doc_ok d1 -> doc_ok d2 -> nonblank_lines d1 = nonblank_lines d2 ->
  51 <= byte_len (doc_text d1) -> 51 <= byte_len (doc_text d2) ->
  erase_result (parse_sdp (doc_text d1) b) = erase_result (parse_sdp (doc_text d2) b).
Proof.
  intros E d1 d2 b O1 O2 H B1 B2. apply lines_irrelevant; auto.
  rewrite !lines_doc by auto. exact H.
Qed.
Print Assumptions C05_line_ends_and_blank_lines.

(** Every text is a [doc], so the above is about all texts. *)
Theorem C05_every_text : forall sdp : str, exists d, doc_ok d /\ doc_text d = sdp.
Proof. exact @every_text_is_doc. Qed.
Print Assumptions C05_every_text.

Example C05_example : forall E : Ext,
  let d1 := {| d_lines := map (fun l => (l, CRLF)) (ex_head ++ ex_audio); d_last := [] |} in
  let d2 := {| d_lines := ([32; 9], LF) :: map (fun l => (l, LF)) ex_head ++ [([], CRLF); (lit "m=audio 9 RTP/AVP 0", CRLF)];
               d_last := lit "a=sendrecv" |} in
  nonblank_lines d1 = nonblank_lines d2 /\ doc_text d1 <> doc_text d2 /\
  accepts E (doc_text d1) false (fun _ => true) = true.
Proof. intros E. split; [|split]; [vm_compute; reflexivity|discriminate|vm_compute; reflexivity]. Qed.

(** ** C06: the structural rules hold of every accepted document and are enforced *)
Theorem C06_structure_holds : forall (E : Ext) sdp b s, parse_sdp sdp b = Ok s -> structural s.
Proof. intros E sdp b s H. apply document in H. destruct H as [_ [ts [ws H]]]. tauto. Qed.
Print Assumptions C06_structure_holds.

Theorem C06_structure_enforced : forall (E : Ext) sdp b ts ws s,
  51 <= byte_len sdp -> Reads 0 (lines sdp) ts ws -> (b = true -> ws = []) ->
  (4 <= List.length ts)%nat -> Assembles ts s -> ~ structural s ->
  exists m, parse_sdp sdp b = Err (PSequence m 0).
Proof. exact @structure_text. Qed.
Print Assumptions C06_structure_enforced.

Example C06_example : forall E : Ext,
  let rid := lit "a=rid:1 send pt=97" in
  accepts E (text (ex_head ++ ex_video ++ [rid; lit "a=simulcast:send 1"])) true (fun _ => true) = true /\
  (exists m, parse_sdp (text (ex_head ++ ex_video ++ [lit "a=rid:1 send pt=98"])) true = Err (PSequence m 0)) /\
  (exists m, parse_sdp (text (ex_head ++ ex_video ++ [rid; lit "a=simulcast:recv 1"])) true = Err (PSequence m 0)) /\
  (exists m, parse_sdp (text (ex_head ++ ex_audio ++ [lit "a=rtcp-mux-only"])) true = Err (PSequence m 0)) /\
  (exists m, parse_sdp (text (firstn 4 ex_head ++ ex_audio)) true = Err (PSequence m 0)).
Proof. intros E. split; [vm_compute; reflexivity|]. repeat split; eexists; vm_compute; reflexivity. Qed.

(** Only the first simulcast attribute of a section is checked. *)
Theorem C06_all_simulcasts_refuted : forall E : Ext, exists sdp s m sc v i,
  parse_sdp sdp true = Ok s /\ In m (s_media s) /\ In (ASimulcast sc) (m_attribute m) /\
  In v (sim_send sc) /\ In i v /\ ~ rid_defined (m_attribute m) Send (sid_id i).
Proof.
  intros E.
  exists (text (ex_head ++ ex_video ++ [lit "a=rid:1 send pt=97"; lit "a=simulcast:send 1"; lit "a=simulcast:send 2"])).
  do 5 eexists. split; [vm_compute; reflexivity|]. split; [left; reflexivity|].
  split; [right; right; right; left; reflexivity|]. split; [left; reflexivity|]. split; [left; reflexivity|].
  intros [r [H [_ K]]]. cbn in H. repeat destruct H as [H|H]; try discriminate; [|contradiction].
  inversion H; subst r. discriminate.
Qed.
Print Assumptions C06_all_simulcasts_refuted.

(** ** C07: attributes at their level *)
Theorem C07_levels : forall (E : Ext) sdp b s, parse_sdp sdp b = Ok s ->
  Forall (fun a => In (sdp_name a) session_names) (s_attribute s) /\
  Forall (fun m => Forall (fun a => In (sdp_name a) media_names) (m_attribute m)) (s_media s).
Proof. exact @levels. Qed.
Print Assumptions C07_levels.

(** The first line out of place at session level, in a text whose lines all
    parse: the error carries its number. *)
Theorem C07_session_level_rejected : forall (E : Ext) sdp b A x l B v o name head tb wa wb,
  51 <= byte_len sdp -> lines sdp = A ++ x :: B ->
  Reads 0 A (TyVersion v :: TyOrigin o :: TySession name :: head) wa ->
  ~ blank x -> parse_sdp_line x (List.length A) = Ok l ->
  Reads (S (List.length A)) B tb wb -> (b = true -> wa ++ wb = []) ->
  Forall session_item head -> ~ session_item (l_type l) -> ~ is_media (l_type l) ->
  exists m, parse_sdp sdp b = Err (PSequence m (List.length A)).
Proof. exact @misplaced_session. Qed.
Print Assumptions C07_session_level_rejected.

(** The same in a media section. *)
Theorem C07_media_level_rejected : forall (E : Ext) sdp b A x l B v o name head ss ml cur tb wa wb,
  51 <= byte_len sdp -> lines sdp = A ++ x :: B ->
  Reads 0 A (TyVersion v :: TyOrigin o :: TySession name ::
             head ++ flat_map section_lines ss ++ TyMedia ml :: cur) wa ->
  ~ blank x -> parse_sdp_line x (List.length A) = Ok l ->
  Reads (S (List.length A)) B tb wb -> (b = true -> wa ++ wb = []) ->
  Forall session_item head -> Forall section_ok ss -> section_ok (ml, cur) ->
  ~ section_ok (ml, cur ++ [l_type l]) -> ~ is_media (l_type l) ->
  exists m, parse_sdp sdp b = Err (PSequence m (List.length A)).
Proof. exact @misplaced_media. Qed.
Print Assumptions C07_media_level_rejected.

Example C07_example : forall E : Ext,
  (exists m, parse_sdp (text (ex_head ++ [lit "a=rtcp-mux"] ++ ex_audio)) true = Err (PSequence m 5)) /\
  (exists m, parse_sdp (text (ex_head ++ ex_audio ++ [lit "a=ice-lite"])) true = Err (PSequence m 7)) /\
  accepts E (text (ex_head ++ ex_audio ++ [lit "a=dtls-message:client x"])) true
    (fun s => match s_media s with [m] => Nat.eqb (List.length (m_attribute m)) 1 | _ => false end) = true.
Proof. intros E. split; [|split]; [eexists; vm_compute; reflexivity..|vm_compute; reflexivity]. Qed.

(** ** C08: what the session of a document consists of *)
Theorem C08_assembly : forall (E : Ext) (l : list sdp_line) (s : session),
  parse_sdp_vector l = Ok s <->
  (4 <= List.length l)%nat /\ Assembles (map l_type l) s /\ structural s /\ s_warnings s = [].
Proof. exact @assembly. Qed.
Print Assumptions C08_assembly.

Theorem C08_document : forall (E : Ext) sdp b s, parse_sdp sdp b = Ok s <->
  51 <= byte_len sdp /\ exists ts ws, Reads 0 (lines sdp) ts ws /\ s_warnings s = ws /\
    (b = true -> ws = []) /\ (4 <= List.length ts)%nat /\ Assembles ts s /\ structural s.
Proof. exact @document. Qed.
Print Assumptions C08_document.

Example C08_example : forall E : Ext,
  accepts E (text (ex_head ++ [lit "b=AS:1"; lit "a=ice-lite"; lit "b=CT:2"] ++ ex_audio ++ ex_video)) true
    (fun s => Nat.eqb (List.length (s_bandwidth s)) 2 && Nat.eqb (List.length (s_attribute s)) 1 &&
              match map (fun m => (ml_media (m_media m), List.length (m_bandwidth m), List.length (m_attribute m))) (s_media s) with
              | [(Audio, 0%nat, 1%nat); (Video, 1%nat, 1%nat)] => true
              | _ => false
              end) = true.
Proof. intros E. vm_compute. reflexivity. Qed.

(** ** C09: repeated and misplaced timing and connection lines *)
Theorem C09_last_wins : forall (E : Ext) v o name head (l : list sdp_line) s,
  map l_type l = TyVersion v :: TyOrigin o :: TySession name :: head -> Forall session_item head ->
  parse_sdp_vector l = Ok s ->
  (forall before t after, head = before ++ TyTiming t :: after -> timings after = [] -> s_timing s = Some t) /\
  (forall before c after, head = before ++ TyConnection c :: after -> connections after = [] -> s_connection s = Some c).
Proof. exact @last_wins. Qed.
Print Assumptions C09_last_wins.

Theorem C09_misplaced_rejected : forall (E : Ext) v o name (l0 l1 l2 y x : sdp_line) head secs ss cur rest ml,
  l_type l0 = TyVersion v -> l_type l1 = TyOrigin o -> l_type l2 = TySession name ->
  Forall session_item (map l_type head) ->
  map l_type secs = flat_map section_lines ss -> Forall section_ok ss ->
  l_type y = TyMedia ml -> section_ok (ml, map l_type cur) ->
  (exists t, l_type x = TyTiming t) \/ (exists n, l_type x = TyVersion n) \/
  (exists g, l_type x = TyOrigin g) \/ (exists n, l_type x = TySession n) \/
  (exists c c', l_type x = TyConnection c /\ In (TyConnection c') (map l_type cur)) ->
  exists m, parse_sdp_vector (l0 :: l1 :: l2 :: head ++ secs ++ y :: cur ++ x :: rest) =
            Err (PSequence m (l_number x)).
Proof. exact @misplaced_rejected. Qed.
Print Assumptions C09_misplaced_rejected.

Example C09_example : forall E : Ext,
  accepts E (text (ex_head ++ [lit "c=IN IP6 ::2"; lit "t=1 2"] ++ ex_audio)) true
    (fun s => match s_timing s, s_connection s with
              | Some t, Some c => (t_start t =? 1) && match conn_address c with TIp (V6 a) => a =? 2 | _ => false end
              | _, _ => false
              end) = true /\
  (exists m, parse_sdp (text (ex_head ++ ex_audio ++ [lit "c=IN IP6 ::2"; lit "c=IN IP6 ::2"])) true = Err (PSequence m 8)) /\
  (exists m, parse_sdp (text (ex_head ++ ex_audio ++ [lit "t=0 0"])) true = Err (PSequence m 7)).
Proof. intros E. split; [vm_compute; reflexivity|]. split; eexists; vm_compute; reflexivity. Qed.

(** ** C37: unknown attributes *)
Theorem C37_unknown_attribute : forall (E : Ext) pre post last name rest e s,
  doc_ok {| d_lines := pre ++ post; d_last := last |} ->
  unknown_name name -> (rest = [] \/ exists v, rest = 58 :: v) ->
  let line := lit "a=" ++ name ++ rest in
  line_ok (line, e) ->
  parse_sdp (doc_text {| d_lines := pre ++ post; d_last := last |}) false = Ok s ->
  exists w1 w2 err, s_warnings s = w1 ++ w2 /\
    parse_sdp (doc_text {| d_lines := pre ++ (line, e) :: post; d_last := last |}) false =
      Ok (with_warnings s (w1 ++ PUnsupported err line (List.length pre) :: map bump w2)).
Proof. exact @insert_unknown. Qed.
Print Assumptions C37_unknown_attribute.

Example C37_example : unknown_name (lit "x-google-flag") /\ ~ unknown_name (lit "RTPmap") /\
  line_ok (lit "a=x-google-flag:conference", CRLF).
Proof.
  split; [|split].
  - split; [discriminate|]. split; [repeat constructor; discriminate|]. intros []; discriminate.
  - intros [_ [_ H]]. apply (H TRtpmap). reflexivity.
  - split; [|exact I]. intros H. cbn in H. repeat destruct H as [H|H]; try discriminate H. contradiction.
Qed.

(** ** C38: media sections are independent *)
Theorem C38_sections_independent : forall (pre : list sdp_type) m1 b1 m2 b2 post s1 s2,
  Forall (fun t => ~ is_media t) b1 -> Forall (fun t => ~ is_media t) b2 ->
  (post = [] \/ exists m p, post = TyMedia m :: p) ->
  Assembles (pre ++ TyMedia m1 :: b1 ++ post) s1 -> Assembles (pre ++ TyMedia m2 :: b2 ++ post) s2 ->
  with_session_media s1 [] = with_session_media (with_warnings s2 (s_warnings s1)) [] /\
  exists before after,
    s_media s1 = before ++ section_media (m1, b1) :: after /\
    s_media s2 = before ++ section_media (m2, b2) :: after /\
    List.length before = List.length (filter (fun t => match t with TyMedia _ => true | _ => false end) pre).
Proof. exact sections_independent. Qed.
Print Assumptions C38_sections_independent.

Theorem C38_sections_of_texts : forall (E : Ext) sdp1 sdp2 b1 b2 A m1 X1 m2 X2 B s1 s2,
  lines sdp1 = A ++ m1 :: X1 ++ B -> lines sdp2 = A ++ m2 :: X2 ++ B ->
  line_is_media m1 -> line_is_media m2 ->
  Forall (fun x => ~ line_is_media x) X1 -> Forall (fun x => ~ line_is_media x) X2 ->
  (B = [] \/ exists m p, B = m :: p /\ line_is_media m) ->
  parse_sdp sdp1 b1 = Ok s1 -> parse_sdp sdp2 b2 = Ok s2 ->
  with_session_media s1 [] = with_session_media (with_warnings s2 (s_warnings s1)) [] /\
  exists before x1 x2 after,
    s_media s1 = before ++ x1 :: after /\ s_media s2 = before ++ x2 :: after /\
    (exists l, parse_sdp_line m1 0 = Ok l /\ l_type l = TyMedia (m_media x1)) /\
    (exists l, parse_sdp_line m2 0 = Ok l /\ l_type l = TyMedia (m_media x2)).
Proof. exact @sections_text. Qed.
Print Assumptions C38_sections_of_texts.

Example C38_example : forall E : Ext,
  line_is_media (lit "m=audio 9 RTP/AVP 0") /\ ~ line_is_media (lit "a=sendrecv") /\
  accepts E (text (ex_head ++ ex_audio ++ ex_video)) true (fun _ => true) = true /\
  accepts E (text (ex_head ++ ex_video ++ ex_video)) true (fun _ => true) = true.
Proof.
  intros E. split; [|split; [|split; vm_compute; reflexivity]].
  - split; [|eexists; split; [vm_compute; reflexivity|eexists; reflexivity]].
    intros H. inversion H; subst. discriminate.
  - intros [_ [l [H [m K]]]]. vm_compute in H. inversion H; subst l. discriminate.
Qed.

(** ** C39: whitespace around type and value *)
Theorem C39_padding_line : forall (E : Ext) w1 t w2 w3 v w4 n,
  ~ In 61 t -> blank w1 -> blank w2 -> blank w3 -> blank w4 ->
  match parse_sdp_line (w1 ++ t ++ w2 ++ [61] ++ w3 ++ v ++ w4) n, parse_sdp_line (t ++ [61] ++ v) n with
  | Ok a, Ok b => l_number a = l_number b /\ same_type (l_type a) (l_type b)
  | Err a, Err b => erase_text a = erase_text b /\ inner a = inner b
  | Panic, Panic => True
  | _, _ => False
  end.
Proof. exact @padded_line. Qed.
Print Assumptions C39_padding_line.

Theorem C39_padding_document : forall (E : Ext) sdp1 sdp2 b,
  51 <= byte_len sdp1 -> 51 <= byte_len sdp2 -> Forall2 padded (lines sdp1) (lines sdp2) ->
  erase_text_result (parse_sdp sdp1 b) = erase_text_result (parse_sdp sdp2 b).
Proof. exact @padded_document. Qed.
Print Assumptions C39_padding_document.

Example C39_example : forall E : Ext,
  padded (lit " t	= 0 0 ") (lit "t=0 0") /\
  (exists l, parse_sdp_line (lit " t	= 0 0 ") 4 = Ok l) /\
  accepts E (text [lit "v=0"; lit "o=- 1 2 IN IP6 ::1"; lit "s =  talk "; lit "t=0 0"; lit "c=IN IP6 ::1"]) true
    (fun s => match s_session s with Some n => str_eqb n (lit "talk") | None => false end) = true.
Proof.
  intros E. split; [|split; [eexists; vm_compute; reflexivity|vm_compute; reflexivity]].
  right. exists [32], (lit "t"), [9], [32], (lit "0 0"), [32].
  repeat split; repeat constructor. intros [H|[]]. discriminate.
Qed.

(** ** C40: line types that are not implemented *)
Theorem C40_unknown_type_line : forall (E : Ext) line c n,
  has_type line c -> ~ In (ascii_lower c) known_types ->
  exists e, parse_sdp_line line n = Err (PLine e line n).
Proof. exact @unknown_type_line. Qed.
Print Assumptions C40_unknown_type_line.

Theorem C40_unknown_type_document : forall (E : Ext) sdp i line c b s,
  nth_error (lines sdp) i = Some line -> has_type line c -> ~ In (ascii_lower c) known_types ->
  parse_sdp sdp b <> Ok s.
Proof. exact @unknown_type_document. Qed.
Print Assumptions C40_unknown_type_document.

(** Conversely every line that parses, or is only unsupported, has a known type. *)
Theorem C40_known_types : forall (E : Ext) line n,
  (forall e, parse_sdp_line line n <> Err (PLine e line n)) -> parse_sdp_line line n <> Panic ->
  exists c, has_type line c /\ In (ascii_lower c) known_types.
Proof. exact @line_type_known. Qed.
Print Assumptions C40_known_types.

Example C40_example : forall E : Ext,
  has_type (lit "e=me@example.com") 101 /\ ~ In (ascii_lower 101) known_types /\
  Forall (fun c => exists v l, parse_sdp_line (c :: lit "=" ++ v) 0 = Ok l) known_types /\
  (exists e, parse_sdp (text (ex_head ++ [lit "e=me@example.com"] ++ ex_audio)) false = Err (PLine e (lit "e=me@example.com") 5)).
Proof.
  intros E. split; [|split; [|split]].
  - exists [], [], (lit "me@example.com"). repeat split; try constructor. discriminate.
  - vm_compute. intros H. repeat destruct H as [H|H]; try discriminate H. contradiction.
  - repeat (apply Forall_cons; [|]); try apply Forall_nil.
    + exists (lit "sendrecv"). eexists. vm_compute. reflexivity.
    + exists (lit "AS:1"). eexists. vm_compute. reflexivity.
    + exists (lit "IN IP6 ::1"). eexists. vm_compute. reflexivity.
    + exists (lit "audio 9 RTP/AVP 0"). eexists. vm_compute. reflexivity.
    + exists (lit "- 1 2 IN IP6 ::1"). eexists. vm_compute. reflexivity.
    + exists []. eexists. vm_compute. reflexivity.
    + exists (lit "0 0"). eexists. vm_compute. reflexivity.
    + exists (lit "0"). eexists. vm_compute. reflexivity.
  - eexists. vm_compute. reflexivity.
Qed.

(** ** C43: how errors are displayed *)
Theorem C43_display : forall a b : perr, show_perr a = show_perr b ->
  match a, b with
  | PLine e l n, PLine e' l' n' | PUnsupported e l n, PUnsupported e' l' n' =>
      show_ierr e = show_ierr e' -> l = l' /\ n = n'
  | PSequence m n, PSequence m' n' => m = m' /\ n = n'
  | _, _ => False
  end.
Proof. exact show_perr_parts. Qed.
Print Assumptions C43_display.

(** The parts are in the text. *)
Definition within (x y : str) : Prop := exists a b, y = a ++ x ++ b.
Theorem C43_parts_shown : forall p : perr,
  match p with
  | PLine e l n | PUnsupported e l n =>
      within (show_ierr e) (show_perr p) /\ within (show_N (N.of_nat n)) (show_perr p) /\ within l (show_perr p)
  | PSequence m n => within m (show_perr p) /\ within (show_N (N.of_nat n)) (show_perr p)
  end.
Proof. exact parts_shown. Qed.
Print Assumptions C43_parts_shown.

(** Different errors can be displayed alike if their messages differ. *)
Theorem C43_display_injective_refuted : exists a b : perr, a <> b /\ show_perr a = show_perr b.
Proof.
  exists (PLine (EGeneric (lit "x in line(1): y")) (lit "z") 2), (PLine (EGeneric (lit "x")) (lit "y in line(2): z") 1).
  split; [discriminate|vm_compute; reflexivity].
Qed.
Print Assumptions C43_display_injective_refuted.

Example C43_example :
  show_perr (PLine (EInteger IntInvalidDigit) (lit "t=x 0") 3) =
  lit "Line error: Integer parsing error: invalid digit found in string in line(3): t=x 0".
Proof. vm_compute. reflexivity. Qed.

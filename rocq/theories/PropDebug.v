(** * C76: what [{:?}] and [{:#?}] of sessions write *)
From Coq Require Import List NArith ZArith Bool Ascii String Lia ZifyBool ZifyNat ZifyN.
From Verif Require Import Str Num Net Types Ext Ext0 Show Session Tools Serde Debug Output SpecDoc SpecItems SpecSerde SpecTools SpecDebug.
From Verif Require Import StrLemmas NetLemmas PVal11 PExt0 PDebug3.
Import ListNotations.
Open Scope N_scope.
Open Scope list_scope.

(** The shape: names, order and types of all fields. *)
Theorem C76_shape : forall url_error addr_error s, Forall own_warning (s_warnings s) ->
  conforms debug_schema (dv_session url_error addr_error s).
Proof. exact session_dv_conforms. Qed.

(** The text is laid out as the standard library lays out such a value, on one line
    or indented. *)
Theorem C76_text : forall printable f g u a, debug_texts f g u a -> forall s,
  laid_out printable f g OneLine 0 (dv_session u a s) (debug_session printable f g u a s) /\
  laid_out printable f g Indented 0 (dv_session u a s) (debug_session_pretty printable f g u a s).
Proof. intros p f g u a T s. split; [exact (session_out p f g u a T OneLine s) | exact (session_out p f g u a T Indented s)]. Qed.

(** Whatever a session holds, no control char and no char that cannot be shown
    reaches the terminal; the indented text has line ends besides. *)
Theorem C76_clean : forall printable f g u a, debug_texts f g u a -> forall s,
  Forall (clean printable) (debug_session printable f g u a s) /\
  Forall (fun c => clean printable c \/ c = 10) (debug_session_pretty printable f g u a s).
Proof.
  intros p f g u a T s. split; apply Forall_forall; intros c H.
  - destruct (session_clean p f g u a T OneLine s c H) as [K|[K _]]; [exact K | discriminate K].
  - destruct (session_clean p f g u a T Indented s c H) as [K|[_ K]]; auto.
Qed.

(** Sessions with the same text are the same: every field can be told from it. *)
Theorem C76_apart : forall printable f g u a, debug_texts f g u a -> forall s s',
  Forall item_range (session_items s) -> Forall item_range (session_items s') ->
  images_are_numbers s -> images_are_numbers s' -> Forall own_warning (s_warnings s) -> Forall own_warning (s_warnings s') ->
  debug_session printable f g u a s = debug_session printable f g u a s' \/
  debug_session_pretty printable f g u a s = debug_session_pretty printable f g u a s' -> s = s'.
Proof.
  intros p f g u a T s s' R R' N N' O O' [Q|Q].
  - exact (session_apart p f g u a T OneLine s s' R R' N N' O O' Q).
  - exact (session_apart p f g u a T Indented s s' R R' N N' O O' Q).
Qed.

(** Accepted texts give such sessions, if their image attributes have no NaN. *)
Theorem C76_accepted : forall E : Ext, ext_ok E -> forall printable f g u a, debug_texts f g u a -> forall sdp sdp' b b' s s',
  parse_sdp sdp b = Ok s -> parse_sdp sdp' b' = Ok s' -> images_are_numbers s -> images_are_numbers s' ->
  debug_session printable f g u a s = debug_session printable f g u a s' \/
  debug_session_pretty printable f g u a s = debug_session_pretty printable f g u a s' -> s = s'.
Proof.
  intros E X p f g u a T sdp sdp' b b' s s' P P' N N' Q.
  apply (C76_apart p f g u a T s s'); auto; try (eapply session_range; eassumption); eapply accepted_own; eassumption.
Qed.

(** So what the example program prints tells what it has read (C72 takes the text
    of a session as given). *)
Theorem C76_example : forall E : Ext, ext_ok E -> forall printable f g u a, debug_texts f g u a -> forall os_error pm x y fs s s',
  let read t := parse_sdp (join crlf (filter (fun l => negb (starts_with_char 59 (trim_start l))) (lines t))) true in
  let run x := file_parser_run (debug_session_pretty printable f g u a) os_error pm [[]; x] fs in
  (exists t, fs x = Contents t /\ read t = Ok s) -> (exists t, fs y = Contents t /\ read t = Ok s') ->
  images_are_numbers s -> images_are_numbers s' -> run x = run y -> s = s'.
Proof.
  intros E X p f g u a T os pm x y fs s s' read run (t & A & P) (t' & A' & P') N N' Q.
  apply (C76_accepted E X p f g u a T _ _ _ _ _ _ P P' N N'). right. subst read run. cbv beta in P, P', Q.
  generalize dependent (debug_session_pretty p f g u a). intros D Q. unfold file_parser_run in Q. rewrite A, A' in Q. cbv zeta in Q. rewrite P, P' in Q.
  injection Q as Q. rewrite !app_nil_r in Q. exact Q.
Qed.

(** The texts that are not modelled can be as assumed: [Display] of floats would do. *)
Theorem C76_texts : forall E : Ext, ext_ok E -> debug_texts show_f32 show_f64 (fun _ => lit "IdnaError") (lit "AddrParseError(Ip)").
Proof.
  intros E X. split.
  - intro x. destruct (f32_show_chars _ X x) as [A B]. split; [exact A|]. eapply forallb_weaken; [|exact B]. intro c. unfold float_char, word_char. cbn. lia.
  - intro x. destruct (f64_show_chars _ X x) as [A B]. split; [exact A|]. eapply forallb_weaken; [|exact B]. intro c. unfold float_char, word_char. cbn. lia.
  - intros x y A B N N' Q. pose proof (f32_roundtrip _ X x A N) as R. rewrite Q, (f32_roundtrip _ X y B N') in R. congruence.
  - intros x y A B N N' Q. pose proof (f64_roundtrip _ X x A N) as R. rewrite Q, (f64_roundtrip _ X y B N') in R. congruence.
  - intro m. repeat constructor; lia.
  - repeat constructor; lia.
Qed.

(** The bits of a NaN cannot be told from its text, which is always the same. *)
Definition base : str := join crlf [lit "v=0"; lit "o=- 0 0 IN IP6 ::1"; lit "s=-"; lit "t=0 0"; lit "c=IN IP6 ::1"; lit "m=video 9 RTP/AVP 0"; lit "a=imageattr:* send [x=1,y=1,q="].
Theorem C76_nan_refuted : exists E : Ext, ext_ok E /\ exists sdp sdp' s s', parse_sdp sdp true = Ok s /\ parse_sdp sdp' true = Ok s' /\ s <> s' /\
  debug_session_pretty (fun _ => true) show_f32 show_f64 (fun _ => []) [] s = debug_session_pretty (fun _ => true) show_f32 show_f64 (fun _ => []) [] s'.
Proof.
  exists Ext0. split; [exact ext0_ok|]. exists (base ++ lit "NaN]"), (base ++ lit "-NaN]"). 
  eexists. eexists. split; [vm_compute; reflexivity|]. split; [vm_compute; reflexivity|]. split; [discriminate | vm_compute; reflexivity].
Qed.

(** Concrete cases. *)
Definition shown (E : Ext) (L : layout) (s : session) : str := match L with
  | OneLine => debug_session (fun c => c <? 256) show_f32 show_f64 (fun _ => []) [] s
  | Indented => debug_session_pretty (fun c => c <? 256) show_f32 show_f64 (fun _ => []) [] s
  end.
Definition small : str := join crlf
  [lit "v=0"; lit "o=""\ 0 0 IN IP6 ::1"; lit "s=" ++ [7; 233; 8206]; lit "t=0 0"; lit "a=foo"; lit "c=IN IP6 ::1"].
Example C76_one_line : forall E : Ext, exists s, parse_sdp small false = Ok s /\
  shown E OneLine s = lit "SdpSession { version: 0, origin: SdpOrigin { username: ""\""\\"", session_id: 0, session_version: 0, unicast_addr: Ip(::1) }, session: Some(""\u{7}" ++ [233] ++
    lit "\u{200e}""), connection: Some(SdpConnection { address: Ip(::1), ttl: None, amount: None }), bandwidth: [], timing: Some(SdpTiming { start: 0, stop: 0 }), attribute: [], media: [], warnings: [Unsupported { error: Unsupported(""Unknown attribute type foo""), line: ""a=foo"", line_number: 4 }] }".
Proof. intro E. eexists. split; [vm_compute; reflexivity | vm_compute; reflexivity]. Qed.
Example C76_indented : forall E : Ext, exists s, parse_sdp small false = Ok s /\
  shown E Indented s = join [10] [
    lit "SdpSession {";
    lit "    version: 0,";
    lit "    origin: SdpOrigin {";
    lit "        username: ""\""\\"",";
    lit "        session_id: 0,";
    lit "        session_version: 0,";
    lit "        unicast_addr: Ip(";
    lit "            ::1,";
    lit "        ),";
    lit "    },";
    lit "    session: Some(";
    lit "        ""\u{7}" ++ [233] ++ lit "\u{200e}"",";
    lit "    ),";
    lit "    connection: Some(";
    lit "        SdpConnection {";
    lit "            address: Ip(";
    lit "                ::1,";
    lit "            ),";
    lit "            ttl: None,";
    lit "            amount: None,";
    lit "        },";
    lit "    ),";
    lit "    bandwidth: [],";
    lit "    timing: Some(";
    lit "        SdpTiming {";
    lit "            start: 0,";
    lit "            stop: 0,";
    lit "        },";
    lit "    ),";
    lit "    attribute: [],";
    lit "    media: [],";
    lit "    warnings: [";
    lit "        Unsupported {";
    lit "            error: Unsupported(";
    lit "                ""Unknown attribute type foo"",";
    lit "            ),";
    lit "            line: ""a=foo"",";
    lit "            line_number: 4,";
    lit "        },";
    lit "    ],";
    lit "}"].
Proof. intro E. eexists. split; [vm_compute; reflexivity | vm_compute; reflexivity]. Qed.

Definition theorems := (C76_shape, C76_text, C76_clean, C76_apart, C76_accepted, C76_example, C76_texts, C76_nan_refuted).
Print Assumptions theorems.

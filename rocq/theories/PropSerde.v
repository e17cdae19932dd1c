(** * C57: serialized sessions can be told apart *)
From Coq Require Import List NArith Bool Ascii String Lia.
From Verif Require Import Str Num Net Types Ext Show Address AttrParse Media Session Tools Serde Ext0 SpecDoc SpecVal SpecItems SpecTools SpecSerde
  PVal11 PSerde PSerde2 PSerde3 PSerde4 PSerde5.
Import ListNotations.
Open Scope N_scope.
Open Scope list_scope.

(** What is serialized has the shape of the type: the fields by name and in
    order, the variants by name and position. *)
Theorem C57_shape : forall h s, conforms (session_schema h) (sv_session h s).
Proof. exact session_conforms. Qed.

Theorem C57_line_shape : forall h l, conforms (line_schema h) (sv_line h l).
Proof. exact line_conforms. Qed.

(** Numbers fit their types: only the line numbers of the warnings are bounded by
    the length of the text instead. *)
Theorem C57_range : forall (E : Ext), ext_ok E -> forall sdp b s h, parse_sdp sdp b = Ok s ->
  in_range (sv_session h (with_warnings s [])).
Proof. intros E X sdp b s h H. exact (r_session h s (@session_range E X _ _ _ H)). Qed.

(** Equal data means equal sessions, warnings included. *)
Theorem C57_data : forall h s s', ips_ok s -> ips_ok s' ->
  (sv_session h s = sv_session h s' -> s = s').
Proof. exact session_inj. Qed.

(** JSON does not confuse sessions without NaN or infinities. *)
Theorem C57_json : forall h s s', ips_ok s -> ips_ok s' -> all_finite (sv_session h s) -> all_finite (sv_session h s') ->
  (to_json (sv_session h s) = to_json (sv_session h s') -> s = s').
Proof.
  intros h s s' I I' F F' Q. apply (C57_data h s s' I I').
  exact (json_apart _ _ _ (session_clear h) (session_conforms h s) (session_conforms h s') F F' Q).
Qed.

(** Formats without names do not confuse any. *)
Theorem C57_positional : forall h s s', ips_ok s -> ips_ok s' ->
  (to_positional (sv_session h s) = to_positional (sv_session h s') -> s = s').
Proof.
  intros h s s' I I' Q. apply (C57_data h s s' I I').
  exact (positional_apart _ _ _ (session_conforms h s) (session_conforms h s') Q).
Qed.

(** Accepted sessions are covered. *)
Theorem C57_accepted : forall (E : Ext), ext_ok E -> forall sdp b s h, parse_sdp sdp b = Ok s ->
  ips_ok s /\ (images_finite s -> all_finite (sv_session h s)).
Proof.
  intros E X sdp b s h H. apply (@session_range E X) in H. split; [exact (session_ips s H) | exact (fin_session h s H)].
Qed.

(** Lines, too. *)
Theorem C57_lines : forall (E : Ext), ext_ok E -> forall t n l t' n' l' h,
  parse_sdp_line t n = Ok l -> parse_sdp_line t' n' = Ok l' -> sv_line h l = sv_line h l' -> l = l'.
Proof.
  intros E X t n l t' n' l' h H H' Q. apply (@line_range E X) in H. apply (@line_range E X) in H'.
  exact (line_inj h _ _ (range_ips _ H) (range_ips _ H') Q).
Qed.

(** JSON objects have no key twice. *)
Theorem C57_keys : forall h s, keys_differ (to_json (sv_session h s)).
Proof. intros h s. exact (json_keys _ _ (session_clear h) (session_conforms h s)). Qed.

(** Without the condition on floats JSON confuses accepted sessions: q=NaN is null,
    as is no q at all. *)
Definition image_text (q : string) : str :=
  lit "v=0
o=- 1 1 IN IP6 ::1
s=-
t=0 0
c=IN IP6 ::1
m=video 9 RTP/AVP 97
a=imageattr:97 send [x=320,y=240" ++ of_string q ++ lit "]
".
Theorem C57_json_refuted : exists sdp sdp' s s', parse_sdp (E:=Ext0) sdp true = Ok s /\ parse_sdp (E:=Ext0) sdp' true = Ok s' /\
  to_json (sv_session true s) = to_json (sv_session true s') /\ s <> s'.
Proof.
  exists (image_text ""), (image_text ",q=NaN").
  eassert (H : parse_sdp (E:=Ext0) (image_text "") true = Ok _) by (vm_compute; reflexivity).
  eassert (H' : parse_sdp (E:=Ext0) (image_text ",q=NaN") true = Ok _) by (vm_compute; reflexivity).
  eexists. eexists. split; [exact H|]. split; [exact H'|]. split; [vm_compute; reflexivity|]. intro Q. discriminate Q.
Qed.

(** ** The theorems apply *)
Definition sample_text (end_ : string) : str :=
  lit "v=0
o=- 1 2 IN IP6 ::1
s=-
c=IN IP6 ff01::101/127
t=0 0
a=nonsense
m=audio 9 RTP/AVP 0
a=ssrc-group:FID 1 2
a=rtcp:9 IN IP6 ::2
a=candidate:1 1 UDP 5 ::3 4 typ host generation 0" ++ of_string end_ ++ lit "
".
Example sample_sessions : forall E : Ext, exists s s',
  parse_sdp (sample_text "") false = Ok s /\ parse_sdp (sample_text " ufrag x") false = Ok s' /\
  List.length (s_warnings s) = 1%nat /\ images_finite s /\ images_finite s' /\ s <> s'.
Proof.
  intro E. eassert (H : parse_sdp (sample_text "") false = Ok _) by (vm_compute; reflexivity).
  eassert (H' : parse_sdp (sample_text " ufrag x") false = Ok _) by (vm_compute; reflexivity).
  eexists. eexists. split; [exact H|]. split; [exact H'|]. split; [reflexivity|].
  split; [repeat (constructor; [exact I|]); constructor|]. split; [repeat (constructor; [exact I|]); constructor|]. intro Q. discriminate Q.
Qed.
(** Hence their JSON differs. *)
Example sample_json : forall E : Ext, ext_ok E -> exists s s',
  parse_sdp (sample_text "") false = Ok s /\ parse_sdp (sample_text " ufrag x") false = Ok s' /\
  to_json (sv_session true s) <> to_json (sv_session true s') /\ to_positional (sv_session false s) <> to_positional (sv_session false s').
Proof.
  intros E X. destruct (sample_sessions E) as (s & s' & H & H' & _ & F & F' & D). exists s, s'. split; [exact H|]. split; [exact H'|].
  destruct (C57_accepted E X _ _ _ true H) as [I K]. destruct (C57_accepted E X _ _ _ true H') as [I' K'].
  split; intro Q.
  - apply (C57_json true s s' I I' (K F) (K' F')) in Q. exact (D Q).
  - apply (C57_positional false s s' I I') in Q. exact (D Q).
Qed.
(** Parts of what is written. *)
Example sample_parts : forall E : Ext,
  match parse_sdp (sample_text "") false with
  | Ok s =>
      map (fun c => to_json (sv_connection true c)) (of_option (s_connection s)) =
        [JObj [(lit "address", JObj [(lit "Ip", JStr (lit "ff01::101"))]); (lit "ttl", JInt 127); (lit "amount", JNull)]] /\
      map (fun w => to_json (sv_perr w)) (s_warnings s) =
        [JObj [(lit "type", JStr (lit "Unsupported")); (lit "message", JStr (lit "Unsupported parsing error: Unknown attribute type nonsense"));
               (lit "line", JStr (lit "a=nonsense")); (lit "line_number", JInt 5)]] /\
      map (fun m => map (fun a => to_json (sv_attr true a)) (firstn 2 (m_attribute m))) (s_media s) =
        [[JObj [(lit "SsrcGroup", JArr [JStr (lit "FlowIdentification");
            JArr [JObj [(lit "id", JInt 1); (lit "attribute", JNull); (lit "value", JNull)];
                  JObj [(lit "id", JInt 2); (lit "attribute", JNull); (lit "value", JNull)]]])];
          JObj [(lit "Rtcp", JObj [(lit "port", JInt 9); (lit "unicast_addr", JObj [(lit "Ip", JStr (lit "::2"))])])]]] /\
      to_positional (sv_origin false (s_origin s)) =
        [PosText (lit "-"); PosWord 1; PosWord 2; PosCount 1; PosCount 1] ++ repeat (PosWord 0) 15 ++ [PosWord 1]
  | _ => False
  end.
Proof. intro E. vm_compute. repeat split; reflexivity. Qed.
Definition theorems := (C57_shape, C57_line_shape, C57_range, C57_data, C57_json, C57_positional, C57_accepted, C57_lines, C57_keys, C57_json_refuted).
Print Assumptions theorems.

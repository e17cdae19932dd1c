(** * C55: printing and parsing again settles

    Some values change when they are printed and parsed (C12).  But they do not
    change for ever: with every round the text stays as it is or gets shorter. *)
From Coq Require Import List NArith ZArith Bool Ascii String Lia.
From Verif Require Import Str Num Net Types Ext Show Session SpecApi SpecDoc SpecItems SpecPrint SpecSettle PSettle4.
Import ListNotations.
Open Scope N_scope.
Open Scope list_scope.

(** Lines.  If nothing in it is unsettled, only the first round changes a line. *)
Theorem C55_lines : forall (E : Ext), ext_ok E -> forall line n l n' l',
  parse_sdp_line line n = Ok l -> ~ item_nan (l_type l) ->
  (Z.of_nat (List.length (printed_line (l_type l))) < 2147483648)%Z ->
  parse_sdp_line (printed_line (l_type l)) n' = Ok l' ->
  shrinks (printed_line (l_type l)) (printed_line (l_type l')) /\
  (~ item_unsettled (l_type l) ->
   exists l2, parse_sdp_line (printed_line (l_type l')) n' = Ok l2 /\ l_type l2 = l_type l').
Proof. exact @line_settles. Qed.
(** Sessions: one round, *)
Theorem C55_sessions : forall (E : Ext), ext_ok E -> forall sdp b s b' s',
  parse_sdp sdp b = Ok s -> ~ Exists item_nan (session_items s) ->
  (Z.of_nat (List.length (show_session s)) < 2147483648)%Z ->
  parse_sdp (show_session s) b' = Ok s' -> shrinks (show_session s) (show_session s').
Proof. exact @session_round. Qed.
(** the second round, *)
Theorem C55_second : forall (E : Ext), ext_ok E -> forall sdp b s b1 s1 b2,
  parse_sdp sdp b = Ok s -> ~ Exists item_nan (session_items s) ->
  (Z.of_nat (List.length (show_session s)) < 2147483648)%Z -> ~ has_unsettled s ->
  parse_sdp (show_session s) b1 = Ok s1 -> 51 <= byte_len (show_session s1) ->
  parse_sdp (show_session s1) b2 = Ok (with_warnings s1 []).
Proof. exact @session_second. Qed.
(** and any number of rounds: as many as the text has characters are enough. *)
Theorem C55_rounds : forall (E : Ext), ext_ok E -> forall sdp b s s1 s2,
  parse_sdp sdp b = Ok s -> ~ Exists item_nan (session_items s) ->
  (Z.of_nat (List.length (show_session s)) < 2147483648)%Z ->
  rounds (List.length (show_session s)) s s1 -> parse_sdp (show_session s1) false = Ok s2 ->
  show_session s2 = show_session s1 /\ parse_sdp (show_session s2) false = Ok s2.
Proof. exact @session_rounds. Qed.

(** ** False of the code: a fixed number of rounds

    A second a=simulcast line is not checked, and "rid=" at its beginning gets
    lost with every round. *)
Theorem C55_fixed_number_refuted : forall (E : Ext), ext_ok E -> forall k,
  exists sdp s s1 s2, parse_sdp sdp true = Ok s /\ rounds k s s1 /\
    parse_sdp (show_session s1) false = Ok s2 /\ show_session s2 <> show_session s1.
Proof. exact @many_rounds. Qed.

(** ** Concrete cases *)
Definition reread (E : Ext) (line : str) : option str :=
  match parse_sdp_line line 0 with Ok l => Some (printed_line (l_type l)) | _ => None end.
(** These lines are accepted and printed once, twice and three times. *)
Example C55_lines_example : forall E : Ext,
  (reread E (lit "a=rid:a send depends=b,,c") = Some (lit "a=rid:a send depends=b,c") /\
   reread E (lit "a=rid:a send depends=b,c") = Some (lit "a=rid:a send depends=b,c")) /\
  (* a dependency of one blank: two rounds *)
  (reread E (lit "a=rid:a send depends=b, ;x=1") = Some (lit "a=rid:a send x=1;depends=b, ") /\
   reread E (lit "a=rid:a send x=1;depends=b, ") = Some (lit "a=rid:a send x=1;depends=b") /\
   reread E (lit "a=rid:a send x=1;depends=b") = Some (lit "a=rid:a send x=1;depends=b")) /\
  (reread E (lit "a=simulcast:send rid=rid=rid=5") = Some (lit "a=simulcast:send rid=rid=5") /\
   reread E (lit "a=simulcast:send rid=rid=5") = Some (lit "a=simulcast:send rid=5") /\
   reread E (lit "a=simulcast:send rid=5") = Some (lit "a=simulcast:send 5") /\
   reread E (lit "a=simulcast:send 5") = Some (lit "a=simulcast:send 5")) /\
  (reread E (lit "a=msid-semantic:WMS") = Some (lit "a=msid-semantic:WMS *") /\
   reread E (lit "a=msid-semantic:WMS *") = Some (lit "a=msid-semantic:WMS *")).
Proof. intro E. repeat split; vm_compute; reflexivity. Qed.
Definition lossy_lines : list str :=
  [lit "v=0"; lit "o=- 1 2 IN IP6 ::1"; lit "s=-"; lit "t=0 0"; lit "a=msid-semantic:WMS"; lit "m=video 9 RTP/SAVPF 96";
   lit "c=IN IP6 ::1"; lit "a=rid:a send depends=b,,c"; lit "a=fmtp:96 x=1;y=2"].
(** The theorems apply: this session changes in the first round and not in the second. *)
Example C55_sessions_example : forall E : Ext, ext_ok E -> exists s s1,
  parse_sdp (crlf_lines lossy_lines) true = Ok s /\ ~ Exists item_nan (session_items s) /\ ~ has_unsettled s /\
  parse_sdp (show_session s) true = Ok s1 /\ s1 <> s /\ parse_sdp (show_session s1) true = Ok s1.
Proof.
  intros E X. eassert (P : parse_sdp (crlf_lines lossy_lines) true = Ok _) by (vm_compute; reflexivity).
  eassert (P1 : forall s, parse_sdp (crlf_lines lossy_lines) true = Ok s -> parse_sdp (show_session s) true = Ok _).
  { intros s Q. rewrite P in Q. injection Q as <-. vm_compute. reflexivity. }
  specialize (P1 _ P). eexists _, _. split; [exact P|].
  assert (N : ~ Exists item_nan (session_items
    match parse_sdp (crlf_lines lossy_lines) true with Ok s => s | _ => stacked 0 end)).
  { rewrite P. intro K. repeat (apply Exists_cons in K; destruct K as [K|K]; [exact K|]). inversion K. }
  rewrite P in N. split; [exact N|].
  assert (U : ~ has_unsettled
    match parse_sdp (crlf_lines lossy_lines) true with Ok s => s | _ => stacked 0 end).
  { rewrite P. intro K. unfold has_unsettled in K.
    repeat (apply Exists_cons in K; destruct K as [K|K]; [try exact K|]);
      first [inversion K; fail | destruct K as [K1 K]; first [congruence | inversion K; discriminate]]. }
  rewrite P in U. split; [exact U|]. split; [exact P1|]. split; [discriminate|].
  refine (C55_second E X _ _ _ _ _ true P N _ U P1 _); vm_compute; congruence.
Qed.

Definition theorems := (C55_lines, C55_sessions, C55_second, C55_rounds, C55_fixed_number_refuted).
Print Assumptions theorems.

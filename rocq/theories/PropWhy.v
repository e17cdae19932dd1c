(** * C68: why lines are refused *)
From Coq Require Import List NArith ZArith Bool Ascii String Lia.
From Verif Require Import Str Num Net Types Ext Ext0 Show Session SpecApi SpecDoc SpecVal SpecUnsup SpecWhy PWhy.
Import ListNotations.
Open Scope N_scope.
Open Scope list_scope.

(** The error for a line that is not an attribute: the first rule it breaks. *)
Theorem C68_lines : forall (E : Ext) line n e, ~ attribute_line line ->
  (parse_sdp_line line n = Err (PLine e line n) <-> line_wrong line e).
Proof. exact @line_why. Qed.

(** It is the error for the whole text, with the line and its number, if every
    later line means something or is unsupported. *)
Theorem C68_documents : forall E : Ext, ext_total E -> forall d pre line post ts us e, doc_ok d ->
  (Z.of_nat (List.length (doc_text d)) < 2147483648)%Z -> 51 <= byte_len (doc_text d) ->
  doc_lines d = pre ++ line :: post -> ~ blank line -> ~ attribute_line line -> line_wrong line e ->
  lines_read (S (List.length pre)) post ts us ->
  parse_sdp (doc_text d) false = Err (PLine e line (List.length pre)).
Proof. exact @document_why. Qed.

(** The texts of these errors. *)
Theorem C68_texts : forall (E : Ext) line m, line_wrong line (EGeneric m) ->
  In m (map of_string line_messages) \/ exists p t, In p line_prefixes /\ m = of_string p ++ t.
Proof. exact @line_texts. Qed.

(** The code has other texts for such lines, which are never used. *)
Definition unused_texts : list string :=
  [ "missing type"; "missing value"; "missing port token"; "Origin type is missing username token";
    "Origin addrtype does not match address." ]%string.
Theorem C68_unused : forall (E : Ext) line n t, In t unused_texts -> ~ attribute_line line ->
  parse_sdp_line line n <> Err (PLine (EGeneric (of_string t)) line n).
Proof.
  intros E line n t I Na H. apply C68_lines in H; [|exact Na]. apply C68_texts in H. destruct H as [H|(p & r & J & H)].
  - apply in_map_iff in H. destruct H as (x & Hx & J). unfold line_messages, unused_texts in *. cbn [In] in *.
    repeat (destruct I as [I|I]; [subst t; repeat (destruct J as [J|J]; [subst x; discriminate|]); exact J|]). exact I.
  - unfold line_prefixes, unused_texts in *. cbn [In] in *.
    repeat (destruct I as [I|I]; [subst t; repeat (destruct J as [J|J]; [subst p; discriminate|]); exact J|]). exact I.
Qed.

(** Concrete cases: every text, and the other errors. *)
Definition refused_lines : list (str * ierr) :=
  [ (lit "hello", complains "missing = character in line"); (lit " =x", complains "type is empty");
    (lit "vv=0", complains "type too long"); ([233] ++ lit "=0", complains "type too long");
    (lit "t=  ", complains "value is empty"); (lit "y=1", complains "unknown sdp type");
    (lit "o=-", complains "Origin type is missing session ID token");
    (lit "o=- 1", complains "Origin type is missing session version token");
    (lit "o=- 1 2", complains "Origin type is missing network type token");
    (lit "o=- 1 2 IN", complains "Origin type is missing address type token");
    (lit "o=- 1 2 IN IP6", complains "Origin type is missing IP address token");
    (lit "o=- 1 2 UN IP6 ::1", complains "nettype must be IN");
    (lit "c=in ip5 ::1", complains "address type must be IP4 or IP6");
    (lit "c=IN IP6", complains "connection attribute must have three tokens");
    (lit "b=AS:1:2", complains "bandwidth attribute must have two tokens");
    (lit "t=0 0 0", complains "timing attribute must have two tokens");
    (lit "m=audio 9 RTP/AVP", complains "media attribute must have at least four tokens");
    (lit "m=audio 65536 RTP/AVP 0", complains "media port token is too big");
    (lit "m=audio 9 RTP/AVP 0 70 x", complains "format number in media line is out of range");
    (lit "v= 7 ", EGeneric (lit "version type contains unsupported value 7"));
    (lit "E= a@b ", EGeneric (lit "unsupported type email: a@b"));
    (lit "i=x", EGeneric (lit "unsupported type information: x"));
    (lit "k=x", EGeneric (lit "unsupported insecure key exchange: x"));
    (lit "p=x", EGeneric (lit "unsupported type phone: x"));
    (lit "r=x", EGeneric (lit "unsupported type repeat: x"));
    (lit "u=x", EGeneric (lit "unsupported type uri: x"));
    (lit "z=x", EGeneric (lit "unsupported type zone: x"));
    (lit "v=x", EInteger IntInvalidDigit); (lit "b=AS:", EInteger IntEmpty); (lit "b=AS:4294967296x", EInteger IntPosOverflow);
    (lit "b=AS:4294967295x", EInteger IntInvalidDigit); (lit "t=+ 0", EInteger IntInvalidDigit);
    (lit "c=IN IP6 ::1/256/x", EInteger IntInvalidDigit); (lit "c=IN IP6 :/256", EInteger IntPosOverflow);
    (lit "m=audio x/y RTP/AVP 0", EInteger IntInvalidDigit); (lit "m=video 9/ foo 0", EInteger IntEmpty);
    (lit "m=video 9 RTP/AVP 0 x 70", EInteger IntInvalidDigit);
    (lit "o=- 1 2 IN IP4 ::1", AddressTypeMismatch IpV6 IpV4) ].
Example C68_examples : forall E : Ext,
  Forall (fun le => line_wrong (fst le) (snd le)) refused_lines.
Proof.
  intro E.
  assert (N : forall line d r, line = d :: r -> is_ws d = false -> ascii_lower d <> 97 -> ~ attribute_line line).
  { intros line d r -> W L (w1 & c & w2 & v & El & B & _ & _ & (x & Ex & Sl)). injection Ex as <-.
    destruct w1 as [|y w1]; cbn [app] in El; injection El as -> El.
    - apply L, Sl.
    - inversion B; congruence. }
  unfold refused_lines. repeat (apply Forall_cons; [|]); try apply Forall_nil; cbn [fst snd].
  2: { right. exists (lit " "), (lit "x"), []. split; [split; [reflexivity|intros [K|[]]; discriminate]|].
       split; [exists (lit " "), []; repeat split; try constructor; try reflexivity; constructor|]. left. split; reflexivity. }
  all: apply (C68_lines E _ 0); [eapply N; [reflexivity | reflexivity | discriminate] | vm_compute; reflexivity].
Qed.
(** A line breaking two rules, by the rules: the number is wrong, and too many words follow. *)
Example C68_order : forall E : Ext, line_wrong (lit "v=12345678901234567890123 4") (EInteger IntPosOverflow).
Proof.
  intro E. apply (C68_lines E _ 0); [|vm_compute; reflexivity].
  intros (w1 & c & w2 & v & El & B & _ & _ & (x & Ex & Sl)). injection Ex as <-.
  destruct w1 as [|y w1]; cbn [app] in El; injection El as <- El; [discriminate Sl | inversion B; discriminate].
Qed.
(** A document: two wrong lines, the later one is reported. *)
Example C68_document :
  parse_sdp (E:=Ext0) (lit "v=1" ++ [10] ++ lit "o=- 1 2 IN IP6 ::1" ++ [10] ++ lit "s=-" ++ [10] ++
    lit "t=0 zero" ++ [10] ++ lit "a=foo" ++ [10] ++ lit "m=video 9 RTP/AVP 96" ++ [10]) false
  = Err (PLine (EInteger IntInvalidDigit) (lit "t=0 zero") 3).
Proof. vm_compute. reflexivity. Qed.

Definition theorems := (C68_lines, C68_documents, C68_texts, C68_unused).
Print Assumptions theorems.

(** * Specification vocabulary: what warnings say (C67)

    Only definitions: the message that goes with each unsupported line, for
    lines of ASCII chars. *)
From Coq Require Import List NArith ZArith Bool Ascii String.
From Verif Require Import Str Num Net Types Ext Show Session SpecApi SpecDoc SpecVal SpecUnsup.
Import ListNotations.
Open Scope N_scope.
Open Scope list_scope.

Definition ascii_text (s : str) : Prop := Forall (fun c => c < 128) s.

(** Text in capitals, and in small letters. *)
Definition capital (a b : char) : Prop :=
  (97 <= a <= 122 /\ b + 32 = a) \/ (~ (97 <= a <= 122) /\ b = a).
Definition small (a b : char) : Prop :=
  (65 <= a <= 90 /\ a + 32 = b) \/ (~ (65 <= a <= 90) /\ b = a).
Definition in_capitals (s u : str) : Prop := Forall2 capital s u.
Definition in_small (s l : str) : Prop := Forall2 small s l.

(** Quoting: between double quotes, with backslashes before what would end the
    quote or not be visible. *)
Definition hexadecimal (d : N) (c : char) : Prop :=
  nth_error (of_string "0123456789abcdef") (N.to_nat d) = Some c.
Inductive escaped : char -> str -> Prop :=
| escaped_nul : escaped 0 (lit "\0")
| escaped_tab : escaped 9 (lit "\t")
| escaped_feed : escaped 10 (lit "\n")
| escaped_return : escaped 13 (lit "\r")
| escaped_quote : escaped 34 [92; 34]
| escaped_backslash : escaped 92 [92; 92]
| escaped_one : forall c h, c < 16 -> ~ In c [0; 9; 10; 13] -> hexadecimal c h ->
    escaped c (lit "\u{" ++ [h] ++ lit "}")
| escaped_two : forall c a b h k, 0 < a -> b < 16 -> c = a * 16 + b -> (c < 32 \/ c = 127) ->
    hexadecimal a h -> hexadecimal b k -> escaped c (lit "\u{" ++ [h; k] ++ lit "}")
| escaped_not : forall c, 32 <= c < 127 -> c <> 34 -> c <> 92 -> escaped c [c].
Inductive escapes : str -> str -> Prop :=
| escapes_nil : escapes [] []
| escapes_more : forall c s e r, escaped c e -> escapes s r -> escapes (c :: s) (e ++ r).
Definition quoted (s q : str) : Prop := exists r, escapes s r /\ q = [34] ++ r ++ [34].

Section WithExt.
Context {E : Ext}.

Definition candidate_warns (v m : str) : Prop :=
  candidate_unsupported v /\ m = lit "Ice candidate extension name without value".
Definition fingerprint_warns (v m : str) : Prop :=
  exists hash text, words v [hash; text] /\ (forall h, ~ is_word hash (hash_name h)) /\
    m = lit "fingerprint contains an unsupported hash algorithm '" ++ hash ++ lit "'".
Definition fmtp_warns (v m : str) : Prop :=
  fmtp_unsupported v /\ m = lit "Fmtp attributes require a payload type and a parameter block.".
Definition group_warns (v m : str) : Prop :=
  exists sem tags u q, words v (sem :: tags) /\ (forall g, ~ means_upper sem (group_name g)) /\
    in_capitals sem u /\ quoted u q /\
    m = lit "Unknown group semantic '" ++ q ++ lit "' found".
Definition ssrc_group_warns (v m : str) : Prop :=
  exists sem ids u q, words v (sem :: ids) /\ (forall g, ~ means_upper sem (ssrc_group_name g)) /\
    in_capitals sem u /\ quoted u q /\
    m = lit "Unknown ssrc semantic '" ++ q ++ lit "' found".
Definition rtcp_fb_warns (v m : str) : Prop :=
  exists t pt ty more, core v t /\ space_parts 4 t (pt :: ty :: more) /\
    (((forall k, ~ is_word ty (fb_name k)) /\
      exists q, quoted ty q /\ m = lit "Unknown rtcpfb feedback type: " ++ q) \/
     (exists k p rest q, is_word ty (fb_name k) /\ k <> FbTrrInt /\ more = p :: rest /\
        ~ fb_parameter_ok k (Some p) /\ quoted p q /\
        m = lit "Unknown rtcpfb " ++ ty ++ lit " parameter: " ++ q) \/
     (is_word ty "ack" /\ more = [] /\ m = lit "The rtcpfb ack feeback type needs a parameter:")).
Definition attribute_warns (v m : str) : Prop :=
  exists t name rest, core v t /\ ((~ In 58 t /\ name = t /\ rest = []) \/ cut 58 t name rest) /\
    ((~ attribute_named name /\
      exists l, in_small name l /\ m = lit "Unknown attribute type " ++ l) \/
     (means name "candidate" /\ candidate_warns rest m) \/
     (means name "fingerprint" /\ fingerprint_warns rest m) \/
     (means name "fmtp" /\ fmtp_warns rest m) \/
     (means name "group" /\ group_warns rest m) \/
     (means name "rtcp-fb" /\ rtcp_fb_warns rest m) \/
     (means name "ssrc-group" /\ ssrc_group_warns rest m)).
Definition media_warns (v m : str) : Prop :=
  exists kind port proto fmts, words v (kind :: port :: proto :: fmts) /\ fmts <> [] /\
    (((forall k, ~ means kind (media_name k)) /\ m = lit "unsupported media value: " ++ kind) \/
     (exists k, means kind (media_name k)) /\
     (exists p more n, fields 47 port (p :: more) /\ numeral 65535 p n /\
        match more with [] => True | c :: _ => exists k, numeral u32_max c k end) /\
     (forall p, ~ means_upper proto (protocol_name p)) /\
     m = lit "unsupported protocol value: " ++ proto).
Definition line_warns (line m : str) : Prop :=
  exists w1 c w2 v, line = w1 ++ [c] ++ w2 ++ 61 :: v /\ blank w1 /\ blank w2 /\ ~ blank v /\
    ((same_letter c 97 /\ attribute_warns v m) \/ (same_letter c 109 /\ media_warns v m)).
(** The warning for line [fst u], which is number [snd u] of the text. *)
Definition warning_says (w : perr) (u : str * nat) : Prop :=
  exists m, w = PUnsupported (EUnsupported m) (fst u) (snd u) /\ line_warns (fst u) m.
End WithExt.

(** * Specification vocabulary: unsupported lines (C48)

    Only definitions: which lines the parser sets aside as unsupported (a
    warning, or an error in strict mode) rather than accepting or rejecting
    them. *)
From Coq Require Import List NArith ZArith Bool Ascii String.
From Verif Require Import Str Num Net Types Ext Show Session SpecApi SpecDoc SpecVal.
Import ListNotations.
Open Scope N_scope.
Open Scope list_scope.

Section WithExt.
Context {E : Ext}.

(** A candidate followed by an extension name without a value. *)
Definition candidate_unsupported (v : str) : Prop :=
  exists l name v' c, words v (l ++ [name]) /\ words v' l /\ candidate_value v' c.
(** A hash that is not one of the five. *)
Definition fingerprint_unsupported (v : str) : Prop :=
  exists hash text, words v [hash; text] /\ forall h, ~ is_word hash (hash_name h).
(** No space after the payload type. *)
Definition fmtp_unsupported (v : str) : Prop := exists t, core v t /\ ~ In 32 t.
Definition group_unsupported (v : str) : Prop :=
  exists sem tags, words v (sem :: tags) /\ forall g, ~ means_upper sem (group_name g).
Definition ssrc_group_unsupported (v : str) : Prop :=
  exists sem ids, words v (sem :: ids) /\ forall g, ~ means_upper sem (ssrc_group_name g).
(** An unknown feedback type, or a parameter that its type does not have
    (except for trr-int). *)
Definition rtcp_fb_unsupported (v : str) : Prop :=
  exists t pt ty more, core v t /\ space_parts 4 t (pt :: ty :: more) /\
    ((forall k, ~ is_word ty (fb_name k)) \/
     exists k, is_word ty (fb_name k) /\ k <> FbTrrInt /\ ~ fb_parameter_ok k (hd_error more)).

(** An attribute name of this parser. *)
Definition attribute_named (name : str) : Prop := exists a, means name (sdp_name a).
Definition attribute_unsupported (v : str) : Prop :=
  exists t name rest, core v t /\ ((~ In 58 t /\ name = t /\ rest = []) \/ cut 58 t name rest) /\
    (~ attribute_named name \/
     (means name "candidate" /\ candidate_unsupported rest) \/
     (means name "fingerprint" /\ fingerprint_unsupported rest) \/
     (means name "fmtp" /\ fmtp_unsupported rest) \/
     (means name "group" /\ group_unsupported rest) \/
     (means name "rtcp-fb" /\ rtcp_fb_unsupported rest) \/
     (means name "ssrc-group" /\ ssrc_group_unsupported rest)).

(** An unknown kind of media; or a known one with a readable port and an
    unknown protocol. *)
Definition media_unsupported (v : str) : Prop :=
  exists kind port proto fmts, words v (kind :: port :: proto :: fmts) /\ fmts <> [] /\
    ((forall m, ~ means kind (media_name m)) \/
     (exists m, means kind (media_name m)) /\
     (exists p more n, fields 47 port (p :: more) /\ numeral 65535 p n /\
        match more with [] => True | c :: _ => exists k, numeral u32_max c k end) /\
     (forall p, ~ means_upper proto (protocol_name p))).

Definition line_unsupported (line : str) : Prop :=
  exists w1 c w2 v, line = w1 ++ [c] ++ w2 ++ 61 :: v /\ blank w1 /\ blank w2 /\ ~ blank v /\
    ((same_letter c 97 /\ attribute_unsupported v) \/ (same_letter c 109 /\ media_unsupported v)).

(** Texts in which every line means something or is unsupported: the meanings,
    and the unsupported lines with their numbers. *)
Inductive lines_read : nat -> list str -> list sdp_type -> list (str * nat) -> Prop :=
| read_nil : forall n, lines_read n [] [] []
| read_blank : forall n line rest ts us, blank line ->
    lines_read (S n) rest ts us -> lines_read n (line :: rest) ts us
| read_line : forall n line rest ty ts us, ~ blank line -> line_means line ty ->
    lines_read (S n) rest ts us -> lines_read n (line :: rest) (ty :: ts) us
| read_unsupported : forall n line rest ts us, ~ blank line -> line_unsupported line ->
    lines_read (S n) rest ts us -> lines_read n (line :: rest) ts ((line, n) :: us).
(** A warning for each of them. *)
Definition warning_for (w : perr) (u : str * nat) : Prop :=
  exists m, w = PUnsupported (EUnsupported m) (fst u) (snd u).
End WithExt.

(** * C86: surplus words *)
From Coq Require Import List NArith ZArith Ascii String Lia.
From Verif Require Import Str Num Net Types Ext Show AttrParse Media Session SpecDoc SpecVal SpecBlank Ext0.
From Verif Require Import PWords.
Import ListNotations.
Open Scope N_scope.
Open Scope list_scope.

(** What follows the sixth word of an origin, the second of msid and rtpmap, the
    third of remote-candidates, the fourth of rtcp and simulcast is ignored,
    whether the line is accepted or refused. *)
Theorem C86_lines : forall (E : Ext) x y n, surplus x y ->
  match parse_sdp_line x n, parse_sdp_line y n with
  | Ok a, Ok b => l_number a = l_number b /\ l_type a = l_type b
  | Err a, Err b => erase_text a = erase_text b /\ inner a = inner b
  | Panic, Panic => True
  | _, _ => False
  end.
Proof. exact @surplus_result. Qed.

(** Documents that differ only so (and in whitespace, C39 and C85). *)
Theorem C86_documents : forall (E : Ext) sdp1 sdp2 strict,
  51 <= byte_len sdp1 -> 51 <= byte_len sdp2 -> Forall2 (fun x y => reworded x y \/ surplus x y) (lines sdp1) (lines sdp2) ->
  erase_text_result (parse_sdp sdp1 strict) = erase_text_result (parse_sdp sdp2 strict).
Proof. exact @surplus_document. Qed.

(** Connection, timing, fingerprint and sctpmap lines are refused with other
    numbers of words. *)
Theorem C86_exact_types : forall (E : Ext) k c t v n l, In (k, c) all_words_types -> recased t k ->
  parse_sdp_line (t ++ [61] ++ v) n = Ok l -> exists ws, words v ws /\ List.length ws = c.
Proof. exact @exact_type. Qed.
Theorem C86_exact_attributes : forall (E : Ext) k c t name v n l, In (k, c) all_words_attributes -> recased t (lit "a") -> recased name k ->
  parse_sdp_line (t ++ [61] ++ name ++ [58] ++ v) n = Ok l -> exists ws, words v ws /\ List.length ws = c.
Proof. exact @exact_attribute. Qed.

(** ** Examples *)
Example C86_example_words : same_start 2 (lit "9 G722/8000") (lit "9 G722/8000 x").
Proof.
  exists [lit "9"; lit "G722/8000"], [], [lit "x"]. split; [reflexivity|]. split.
  - refine (words_more [] (lit "9") 32 (lit "G722/8000") _ (Forall_nil _) _ eq_refl (words_last [] _ (Forall_nil _) _)); (split; [discriminate|repeat constructor]).
  - refine (words_more [] (lit "9") 32 (lit "G722/8000 x") _ (Forall_nil _) _ eq_refl (words_more [] (lit "G722/8000") 32 (lit "x") _ (Forall_nil _) _ eq_refl
      (words_last [] _ (Forall_nil _) _))); (split; [discriminate|repeat constructor]).
Qed.
Example C86_example_line : surplus (lit "A=RtpMap:9 G722/8000") (lit "A=RtpMap:9 G722/8000 x").
Proof.
  apply (surplus_attribute (lit "rtpmap") 2 (lit "A") (lit "RtpMap") (lit "9 G722/8000") (lit "9 G722/8000 x"));
    [cbn; tauto|repeat constructor|repeat constructor|exact C86_example_words].
Qed.
Definition eol : str := [13; 10].
Example C86_example : exists s,
  parse_sdp (E := Ext0) (lit "v=0" ++ eol ++ lit "o=me 7 1 IN IP4 10.1.2.3" ++ eol ++ lit "s=-" ++ eol ++ lit "t=0 0" ++ eol ++
    lit "c=IN IP4 10.1.2.3" ++ eol ++ lit "m=audio 9 RTP/SAVPF 9" ++ eol ++ lit "a=rtpmap:9 G722/8000" ++ eol) true = Ok s /\
  parse_sdp (E := Ext0) (lit "v=0" ++ eol ++ lit "o=me 7 1 IN IP4 10.1.2.3 and more" ++ eol ++ lit "s=-" ++ eol ++ lit "t=0 0" ++ eol ++
    lit "c=IN IP4 10.1.2.3" ++ eol ++ lit "m=audio 9 RTP/SAVPF 9" ++ eol ++ lit "a=rtpmap:9 G722/8000 x" ++ eol) true = Ok s.
Proof. eexists. split; [vm_compute; reflexivity|]. vm_compute. reflexivity. Qed.
Example C86_example_exact : forall E : Ext, exists e, parse_sdp_line (lit "t=0 0 0") 4 = Err e.
Proof. eexists. vm_compute. reflexivity. Qed.

(** Assumptions of everything above. *)
Definition theorems := (C86_lines, C86_documents, C86_exact_types, C86_exact_attributes).
Print Assumptions theorems.

(** * C85: blanks between fields *)
From Coq Require Import List NArith ZArith Ascii String Lia.
From Verif Require Import Str Num Net Types Ext Show AttrParse Media Session SpecDoc SpecVal SpecBlank Ext0.
From Verif Require Import PBlank.
Import ListNotations.
Open Scope N_scope.
Open Scope list_scope.

(** A line whose value is a list of words is read alike, or refused for the
    same reason, whatever the whitespace between the words is. *)
Theorem C85_lines : forall (E : Ext) x y n, respaced x y ->
  match parse_sdp_line x n, parse_sdp_line y n with
  | Ok a, Ok b => l_number a = l_number b /\ l_type a = l_type b
  | Err a, Err b => erase_text a = erase_text b /\ inner a = inner b
  | Panic, Panic => True
  | _, _ => False
  end.
Proof. exact @respaced_result. Qed.

(** Documents that differ only in such whitespace give the same session, or the
    same error, up to the texts of lines in errors and warnings. *)
Theorem C85_documents : forall (E : Ext) sdp1 sdp2 strict,
  51 <= byte_len sdp1 -> 51 <= byte_len sdp2 -> Forall2 reworded (lines sdp1) (lines sdp2) ->
  erase_text_result (parse_sdp sdp1 strict) = erase_text_result (parse_sdp sdp2 strict).
Proof. exact @reworded_document. Qed.

(** Other attributes with several words are cut at single blanks: a second one
    makes another value of the line or leads to its refusal. *)
Theorem C85_others_refuted : forall E : Ext,
  Forall (fun name => exists v v', reblanked v v' /\
    exists a, parse_sdp_line (lit "a=" ++ name ++ [58] ++ v) 0 = Ok a /\
    forall b, parse_sdp_line (lit "a=" ++ name ++ [58] ++ v') 0 = Ok b -> l_type b <> l_type a)
  [lit "dtls-message"; lit "fmtp"; lit "imageattr"; lit "rid"; lit "rtcp-fb"; lit "ssrc"].
Proof.
  intro E.
  assert (W : forall a b, word a -> word b -> reblanked (a ++ [32] ++ b) (a ++ [32; 32] ++ b)).
  { intros a b A B. exists [a; b]. split.
    - exact (words_more [] a 32 b [b] (Forall_nil _) A eq_refl (words_last [] b (Forall_nil _) B)).
    - apply (words_more [] a 32 (32 :: b) [b] (Forall_nil _) A eq_refl). apply (words_last [32] b); [repeat constructor|exact B]. }
  assert (W3 : forall a b c, word a -> word b -> word c -> reblanked (a ++ [32] ++ b ++ [32] ++ c) (a ++ [32; 32] ++ b ++ [32] ++ c)).
  { intros a b c A B C. exists [a; b; c].
    assert (BC : forall w, blank w -> words (w ++ b ++ [32] ++ c) [b; c]).
    { intros w K. apply words_more; [exact K|exact B|reflexivity|]. exact (words_last [] c (Forall_nil _) C). }
    split.
    - apply (words_more [] a 32 (b ++ [32] ++ c) [b; c] (Forall_nil _) A eq_refl). exact (BC [] (Forall_nil _)).
    - apply (words_more [] a 32 (32 :: b ++ [32] ++ c) [b; c] (Forall_nil _) A eq_refl). apply (BC [32]). repeat constructor. }
  Ltac two W a b := exists (a ++ [32] ++ b), (a ++ [32; 32] ++ b); split;
    [apply W; (split; [discriminate|repeat constructor])|].
  Ltac other := eexists; (split; [vm_compute; reflexivity|]); intros b H; vm_compute in H;
    first [discriminate H | injection H as <-; vm_compute; discriminate].
  repeat apply Forall_cons; [| | | | | |constructor].
  - two W (lit "client") (lit "x"). other.
  - two W (lit "96") (lit "1-5"). other.
  - exists (lit "97" ++ [32] ++ lit "send" ++ [32] ++ lit "*"), (lit "97" ++ [32; 32] ++ lit "send" ++ [32] ++ lit "*"). split.
    { apply W3; (split; [discriminate|repeat constructor]). }
    other.
  - two W (lit "1") (lit "send"). other.
  - two W (lit "96") (lit "nack"). other.
  - two W (lit "5") (lit "cname:x"). other.
Qed.

(** ** Examples *)
Example C85_example_reblanked : reblanked (lit "0 0") [9; 48; 32; 32; 48].
Proof.
  exists [[48]; [48]]. split.
  - refine (words_more [] [48] 32 [48] [[48]] (Forall_nil _) _ eq_refl (words_last [] [48] (Forall_nil _) _)); (split; [discriminate|repeat constructor]).
  - refine (words_more [9] [48] 32 [32; 48] [[48]] _ _ eq_refl (words_last [32] [48] _ _));
      first [solve [repeat constructor] | split; [discriminate|repeat constructor]].
Qed.
Example C85_example_line : respaced (lit "t=0 0") (lit "t=" ++ [9; 48; 32; 32; 48]).
Proof.
  apply (respaced_type (lit "t") (lit "t") (lit "0 0") [9; 48; 32; 32; 48]); [cbn; tauto|repeat constructor|exact C85_example_reblanked].
Qed.
Definition eol : str := [13; 10].
Example C85_example : exists s,
  parse_sdp (E := Ext0) (lit "v=0" ++ eol ++ lit "o=me 7 1 IN IP4 10.1.2.3" ++ eol ++ lit "s=-" ++ eol ++ lit "t=0 0" ++ eol ++
    lit "c=IN IP4 10.1.2.3" ++ eol ++ lit "m=audio 9 RTP/SAVPF 109 9" ++ eol ++ lit "a=rtpmap:109 opus/48000/2" ++ eol) true = Ok s /\
  parse_sdp (E := Ext0) (lit "v=0" ++ eol ++ lit "o=me  7 1  IN IP4 10.1.2.3" ++ eol ++ lit "s=-" ++ eol ++ lit "t=0   0" ++ eol ++
    lit "c=IN   IP4 10.1.2.3" ++ eol ++ lit "m=audio  9 RTP/SAVPF 109   9" ++ eol ++ lit "a=rtpmap:109    opus/48000/2" ++ eol) true = Ok s.
Proof. eexists. split; [vm_compute; reflexivity|]. vm_compute. reflexivity. Qed.

(** Assumptions of everything above. *)
Definition theorems := (C85_lines, C85_documents, C85_others_refuted).
Print Assumptions theorems.

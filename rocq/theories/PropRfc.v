(** * C62: lines as the RFCs write them are accepted, and documents of them *)
From Coq Require Import List NArith Lia Ascii String.
From Verif Require Import Str Num Net Types Ext Address AttrParse Media Session SpecApi SpecDoc SpecVal SpecIp SpecGrammar SpecRfc.
From Verif Require Import PVal PRfc7 PRfc8 PRfc9.
Import ListNotations.
Open Scope N_scope.
Open Scope list_scope.

(** A line that a rule of the RFCs produces is accepted, as the item that it stands for. *)
Theorem C62_lines : forall E : Ext, ext_ok E -> forall k r t n,
  In (k, r) (rfc_attributes ++ rfc_lines) -> gen r t ->
  exists ty, parse_sdp_line t n = Ok {| l_number := n; l_type := ty; l_text := t |} /\ item_name ty = k.
Proof. intros E OK k r t n M G. exact (lines_taken OK k r t M G n). Qed.

(** A document of such lines in the order of the RFCs is accepted in both modes, without a warning. *)
Theorem C62_documents : forall E : Ext, ext_ok E -> forall ls n strict,
  rfc_document ls n -> Forall (fun l => ~ In 10 l) ls -> 51 <= byte_len (flat_map (fun l => l ++ [13; 10]) ls) ->
  exists s, parse_sdp (flat_map (fun l => l ++ [13; 10]) ls) strict = Ok s /\ s_warnings s = [] /\ List.length (s_media s) = n.
Proof. exact @documents. Qed.

(** In any order, what can be wrong is the order. *)
Theorem C62_only_sequence : forall E : Ext, ext_ok E -> forall sdp strict,
  51 <= byte_len sdp -> Forall (fun t => blank t \/ exists kinds, of_kind kinds t) (lines sdp) ->
  (exists s, parse_sdp sdp strict = Ok s /\ s_warnings s = []) \/ exists m n, parse_sdp sdp strict = Err (PSequence m n).
Proof. exact @only_sequence. Qed.

(** Each of these rules of the RFCs has a line that is refused. *)
Theorem C62_all_lines_refuted : forall (E : Ext) r, In r rfc_beyond ->
  exists t, gen r t /\ forall n l, parse_sdp_line t n <> Ok l.
Proof. exact @beyond_refused. Qed.

(** Of several remote candidates only the first is kept. *)
Theorem C62_remote_candidates_refuted : forall E : Ext, exists one two ty,
  gen (Cat (Lit "a=remote-candidates:") one_remote) one /\
  gen (cats [Lit "a=remote-candidates:"; one_remote; Lit " "; one_remote]) two /\
  (forall n, parse_sdp_line one n = Ok {| l_number := n; l_type := ty; l_text := one |} /\
             parse_sdp_line two n = Ok {| l_number := n; l_type := ty; l_text := two |}).
Proof.
  intro E. exists (lit "a=remote-candidates:1 ::1 9"), (lit "a=remote-candidates:1 ::1 9 2 ::2 10").
  exists (TyAttribute (ARemoteCandidate {| rc_component := 1; rc_address := Ip (V6 1); rc_port := 9 |})).
  assert (G1 : gen one_remote (lit "1 ::1 9")) by by_pieces [lit "1"; lit " "; lit "::1"; lit " "; lit "9"].
  assert (G2 : gen one_remote (lit "2 ::2 10")) by by_pieces [lit "2"; lit " "; lit "::2"; lit " "; lit "10"].
  split; [exact (gen_cat _ _ _ _ (gen_lit "a=remote-candidates:") G1)|]. split.
  - exact (gen_cat _ _ _ _ (gen_lit "a=remote-candidates:") (gen_cat _ _ _ _ G1 (gen_cat _ _ _ _ (gen_lit " ") G2))).
  - intro n. split; vm_compute; reflexivity.
Qed.

(** A parameter after "; " (as in the examples of RFC 7587) is not read. *)
Theorem C62_spaced_parameters_refuted : forall (E : Ext) n, exists f g,
  parse_sdp_line (lit "a=fmtp:101 maxplaybackrate=16000; stereo=1; usedtx=1") n =
    Ok {| l_number := n; l_type := TyAttribute (AFmtp f); l_text := lit "a=fmtp:101 maxplaybackrate=16000; stereo=1; usedtx=1" |} /\
  parse_sdp_line (lit "a=fmtp:101 maxplaybackrate=16000;stereo=1;usedtx=1") n =
    Ok {| l_number := n; l_type := TyAttribute (AFmtp g); l_text := lit "a=fmtp:101 maxplaybackrate=16000;stereo=1;usedtx=1" |} /\
  stereo (fmtp_parameters f) = false /\ usedtx (fmtp_parameters f) = false /\
  stereo (fmtp_parameters g) = true /\ usedtx (fmtp_parameters g) = true.
Proof. intros E n. do 2 eexists. split; [vm_compute; reflexivity|]. split; [vm_compute; reflexivity|]. repeat split. Qed.

(** ** Examples *)
Example C62_example_lines : forall E : Ext,
  of_kind ["candidate"%string] (lit "a=candidate:1 1 UDP 2130706431 203.0.113.141 8998 typ host") /\
  of_kind ["setup"%string] (lit "a=setup:ActPass") /\
  of_kind ["rtpmap"%string] (lit "a=rtpmap:109 opus/48000/2") /\
  of_kind ["extmap"%string] (lit "a=extmap:4096/RecvOnly http://example.com/082005/ext.htm#xmeta short").
Proof.
  intro E. split; [|split; [|split]].
  - exists "candidate"%string, (cats [Lit "a="; Lit "candidate"; Lit ":"; rfc_candidate]). split; [left; reflexivity|].
    split; [apply in_app_iff; left; apply in_app_iff; right; left; reflexivity|].
    by_pieces [lit "a="; lit "candidate"; lit ":"; lit "1 1 UDP 2130706431 203.0.113.141 8998 typ host"].
    by_pieces [lit "1"; lit " "; lit "1"; lit " "; lit "UDP"; lit " "; lit "2130706431"; lit " "; lit "203.0.113.141"; lit " ";
      lit "8998"; lit " "; lit "typ"; lit " "; lit "host"; lit ""; lit ""; lit ""].
  - exists "setup"%string, (cats [Lit "a="; Lit "setup"; Lit ":"; nocases ["active"; "passive"; "actpass"; "holdconn"]%string]).
    split; [left; reflexivity|]. split; [apply in_app_iff; left; apply in_app_iff; right; do 22 right; left; reflexivity|].
    by_pieces [lit "a="; lit "setup"; lit ":"; lit "ActPass"].
  - exists "rtpmap"%string, (cats [Lit "a="; Lit "rtpmap"; Lit ":"; rfc_rtpmap]). split; [left; reflexivity|].
    split; [apply in_app_iff; left; apply in_app_iff; right; do 7 right; left; reflexivity|].
    by_pieces [lit "a="; lit "rtpmap"; lit ":"; lit "109 opus/48000/2"].
    by_pieces [lit "109"; lit " "; lit "opus"; lit "/"; lit "48000"; lit "/2"].
    apply g_opt. apply (gen_cat (Lit "/") (at_most u32_max) (lit "/") (lit "2")); leaf.
  - exists "extmap"%string, (cats [Lit "a="; Lit "extmap"; Lit ":"; rfc_extmap]). split; [left; reflexivity|].
    split; [apply in_app_iff; left; apply in_app_iff; right; do 3 right; left; reflexivity|].
    by_pieces [lit "a="; lit "extmap"; lit ":"; lit "4096/RecvOnly http://example.com/082005/ext.htm#xmeta short"].
    by_pieces [lit "4096"; lit "/RecvOnly"; lit " "; lit "http://example.com/082005/ext.htm#xmeta"; lit " short"].
    + apply g_opt. apply (gen_cat (Lit "/") (nocases ["sendonly"; "recvonly"; "sendrecv"]%string) (lit "/") (lit "RecvOnly")); ors.
    + apply g_opt. apply (gen_cat (Lit " ") (list_of " " non_ws) (lit " ") (lit "short")); [leaf|]. apply g_one. leaf.
Qed.

Definition ex_document : list str :=
  [ lit "v=0"; lit "o=- 4611731400430051336 2 IN IP6 2001:db8::1"; lit "s=-"; lit "t=0 0"; lit "a=ice-lite";
    lit "m=audio 9 UDP/TLS/RTP/SAVPF 109"; lit "a=rtcp-mux"; lit "a=rid:1 send pt=109"; lit "c=IN IP6 ::1"; lit "a=mid:0";
    lit "a=simulcast:send 1" ].
Example C62_example_refers :
  refers_within (lit "m=audio 9 UDP/TLS/RTP/SAVPF 109")
    ([lit "a=rtcp-mux"; lit "a=rid:1 send pt=109"] ++ [lit "a=mid:0"; lit "a=simulcast:send 1"]).
Proof.
  split.
  - intros d id t M (v & before & list & after & body & streams & alts & Q & W & B & F & X & K).
    cbn [In app] in M. destruct M as [<-|[<-|[<-|[<-|[]]]]]; try discriminate Q.
    change (lit "a=simulcast:" ++ lit "send 1" = lit "a=simulcast:" ++ v) in Q. apply app_inv_head in Q. subst v.
    apply words_sws in W. vm_compute in W.
    destruct before as [|x [|y [|z before]]]; try discriminate W. destruct d; [|discriminate W].
    injection W as <- <-. destruct B as [<-|B]; [|discriminate B]. apply fields_split in F. vm_compute in F. subst streams.
    apply Exists_exists in X. destruct X as (x & [<-|[]] & F2). apply fields_split in F2. vm_compute in F2. subst alts.
    right. left. exists (lit " pt=109"). destruct K as [[<-|[]]|[K|[]]]; [|discriminate K].
    split; [reflexivity|]. split; [split; [discriminate|repeat constructor]|right; exists (lit "pt=109"); reflexivity].
  - intros n t M (v & c & before & params & pts & rest & fs & Q & C & S & F & P & X).
    cbn [In app] in M. destruct M as [<-|[<-|[<-|[<-|[]]]]]; try discriminate Q.
    change (lit "a=rid:" ++ lit "1 send pt=109" = lit "a=rid:" ++ v) in Q. apply app_inv_head in Q. subst v.
    apply core_trim in C. vm_compute in C. subst c.
    apply fields_split in F.
    do 14 try (destruct before as [|? before]; [cbn [app] in S; first [discriminate S | injection S as <-; vm_compute in F; try discriminate F] |cbn [app] in S; try discriminate S; injection S as _ S]).
    + injection F as <- <-. apply fields_split in P. vm_compute in P. subst fs.
      apply Exists_exists in X. destruct X as (f & [<-|[]] & x & C & NU). apply core_trim in C. vm_compute in C. subst x.
      apply numeral_iff in NU. vm_compute in NU. injection NU as <-.
      exists (lit "audio 9 UDP/TLS/RTP/SAVPF 109"), (lit "audio"), (lit "9"), (lit "UDP/TLS/RTP/SAVPF"), [lit "109"], (lit "109").
      split; [reflexivity|]. split; [apply words_sws; reflexivity|]. split; [left; reflexivity|]. split; [discriminate|].
      split; [repeat constructor; discriminate|]. split; [reflexivity|intros r R; discriminate R].
Qed.
Example C62_example_document : forall E : Ext, rfc_document ex_document 1 /\ Forall (fun l => ~ In 10 l) ex_document /\
  51 <= byte_len (flat_map (fun l => l ++ [13; 10]) ex_document).
Proof.
  intro E. split; [|split; [repeat (constructor; [cbv; intuition discriminate|]); constructor|vm_compute; discriminate]].
  assert (IL : forall k r, In (k, r) rfc_lines -> In (k, r) (rfc_attributes ++ rfc_lines)) by (intros; apply in_app_iff; right; assumption).
  assert (T : gen typed (lit "IN IP6 ::1")) by (apply gen_or_right; by_pieces [lit "IN"; lit " "; lit "IP6"; lit " "; lit "::1"]).
  assert (T2 : gen typed (lit "IN IP6 2001:db8::1")) by (apply gen_or_right; by_pieces [lit "IN"; lit " "; lit "IP6"; lit " "; lit "2001:db8::1"]).
  assert (K_t : of_kind ["t"%string] (lit "t=0 0")).
  { exists "t"%string, (cats [Lit "t="; at_most u64_max; Lit " "; at_most u64_max]). split; [left; reflexivity|].
    split; [apply IL; do 3 right; left; reflexivity|]. by_pieces [lit "t="; lit "0"; lit " "; lit "0"]. }
  assert (K_flag : forall f, In f flags -> of_kind [f] (lit "a=" ++ of_string f)).
  { intros f F. exists f, (Cat (Lit "a=") (Lit f)). split; [left; reflexivity|]. split; [|apply gen_cat; apply gen_lit].
    apply in_app_iff; left; apply in_app_iff; left. apply in_map_iff. exists f. split; [reflexivity|exact F]. }
  assert (K_c : of_kind ["c"%string] (lit "c=IN IP6 ::1")).
  { exists "c"%string, (cats [Lit "c="; typed]). split; [left; reflexivity|]. split; [apply IL; do 5 right; left; reflexivity|].
    exact (gen_cat _ _ _ _ (gen_lit "c=") T). }
  assert (K_mid : of_kind ["mid"%string] (lit "a=mid:0")).
  { exists "mid"%string, (cats [Lit "a="; Lit "mid"; Lit ":"; token]). split; [left; reflexivity|].
    split; [apply in_app_iff; left; apply in_app_iff; right; do 19 right; left; reflexivity|].
    by_pieces [lit "a="; lit "mid"; lit ":"; lit "0"]. }
  assert (K_rid : of_kind ["rid"%string] (lit "a=rid:1 send pt=109")).
  { exists "rid"%string, (cats [Lit "a="; Lit "rid"; Lit ":"; rfc_rid]). split; [left; reflexivity|].
    split; [apply in_app_iff; left; apply in_app_iff; right; apply in_map_iff; exists ("rid"%string, rfc_rid); split; [reflexivity|cbv [rfc_values In]; tauto]|].
    by_pieces [lit "a="; lit "rid"; lit ":"; lit "1 send pt=109"].
    by_pieces [lit "1"; lit " "; lit "send"; lit " pt=109"].
    apply g_opt. apply (gen_cat (Lit " ") _ (lit " ") (lit "pt=109")); [leaf|].
    apply (gen_cat (Or rid_formats_rule rid_restriction) (Many (Cat (Lit ";") rid_restriction)) (lit "pt=109") []); [|leaf].
    apply gen_or_left. apply (gen_cat (Lit "pt=") _ (lit "pt=") (lit "109")); [leaf|]. apply g_one. leaf. }
  assert (K_sim : of_kind ["simulcast"%string] (lit "a=simulcast:send 1")).
  { exists "simulcast"%string, (cats [Lit "a="; Lit "simulcast"; Lit ":"; rfc_simulcast]). split; [left; reflexivity|].
    split; [apply in_app_iff; left; apply in_app_iff; right; apply in_map_iff; exists ("simulcast"%string, rfc_simulcast); split; [reflexivity|cbv [rfc_values In]; tauto]|].
    by_pieces [lit "a="; lit "simulcast"; lit ":"; lit "send 1"].
    apply gen_or_left. apply (gen_cat (Lit "send ") stream_list (lit "send ") (lit "1")); [leaf|]. apply g_one, g_one.
    apply (gen_cat (opt (Lit "~")) rid_identifier [] (lit "1")); leaf. }
  assert (UP : forall k K t, of_kind [k] t -> In k K -> of_kind K t).
  { intros k K t (k' & r & [<-|[]] & R) I. exists k, r. split; [exact I|exact R]. }
  exists (lit "v=0"), (lit "o=- 4611731400430051336 2 IN IP6 2001:db8::1"), (lit "s=-"), [lit "t=0 0"; lit "a=ice-lite"],
    [[lit "m=audio 9 UDP/TLS/RTP/SAVPF 109"; lit "a=rtcp-mux"; lit "a=rid:1 send pt=109"; lit "c=IN IP6 ::1"; lit "a=mid:0";
      lit "a=simulcast:send 1"]].
  split; [reflexivity|]. split.
  { exists "v"%string, (Lit "v=0"). split; [left; reflexivity|]. split; [apply IL; left; reflexivity|leaf]. }
  split.
  { exists "o"%string, (cats [Lit "o="; non_ws; Lit " "; at_most u64_max; Lit " "; at_most u64_max; Lit " "; typed]).
    split; [left; reflexivity|]. split; [apply IL; do 1 right; left; reflexivity|].
    by_pieces [lit "o="; lit "-"; lit " "; lit "4611731400430051336"; lit " "; lit "2"; lit " "; lit "IN IP6 2001:db8::1"]. exact T2. }
  split.
  { exists "s"%string, (Cat (Lit "s=") byte_string). split; [left; reflexivity|]. split; [apply IL; do 2 right; left; reflexivity|].
    apply (gen_cat (Lit "s=") byte_string (lit "s=") (lit "-")); leaf. }
  split.
  { constructor; [apply (UP "t"%string); [exact K_t|left; reflexivity]|].
    constructor; [|constructor]. apply (UP "ice-lite"%string); [apply (K_flag "ice-lite"%string); cbv; tauto|cbv; tauto]. }
  split; [left; exact K_t|]. split.
  { constructor; [|constructor].
    exists (lit "m=audio 9 UDP/TLS/RTP/SAVPF 109"), [lit "a=rtcp-mux"; lit "a=rid:1 send pt=109"], [lit "c=IN IP6 ::1"],
      [lit "a=mid:0"; lit "a=simulcast:send 1"]. split; [reflexivity|]. split.
    { exists "m"%string, (cats [ Lit "m="; lits ["audio"; "video"]%string; Lit " "; ports; Lit " "; lits protocols; many1 (Cat (Lit " ") payload) ]).
      split; [left; reflexivity|]. split; [apply IL; do 8 right; left; reflexivity|].
      by_pieces [lit "m="; lit "audio"; lit " "; lit "9"; lit " "; lit "UDP/TLS/RTP/SAVPF"; lit " 109"].
      - apply (gen_cat port (opt (Cat (Lit "/") (at_most u32_max))) (lit "9") []); leaf.
      - apply (g_word1 " " payload (lit "109")). apply gen_such; [leaf|]. change (payload_listed 109). unfold payload_listed. lia. }
    split; [constructor; [apply (UP "rtcp-mux"%string); [apply (K_flag "rtcp-mux"%string); cbv; tauto|cbv; tauto]|constructor; [apply (UP "rid"%string); [exact K_rid|cbv; tauto]|constructor]]|].
    split; [constructor; [exact K_c|constructor]|]. split; [cbn; lia|].
    split; [constructor; [apply (UP "mid"%string); [exact K_mid|cbv; tauto]|]; constructor; [apply (UP "simulcast"%string); [exact K_sim|cbv; tauto]|constructor]|].
    split; [|exact C62_example_refers]. intros _. right. left. apply (K_flag "rtcp-mux"%string). cbv; tauto. }
  split; [right; constructor; [do 3 right; left; exact K_c|constructor]|]. split; [|reflexivity].
  (* no extmap line in the session part: by their first letters *)
  assert (X : forall t, of_kind ["extmap"%string] t -> exists v, t = lit "a=extmap:" ++ v).
  { intros t (k & r & [<-|[]] & M & G). apply in_app_iff in M. destruct M as [M|M]; [apply in_app_iff in M; destruct M as [M|M]|].
    - apply in_map_iff in M. destruct M as (f & Q & F). injection Q as -> _. cbv in F. intuition discriminate.
    - apply in_map_iff in M. destruct M as ((f & v) & Q & F). injection Q as Q1 Q2. cbn [fst snd] in *. subst f r.
      change (gen (Cat (Lit "a=") (Cat (Lit "extmap") (Cat (Lit ":") v))) t) in G.
      inversion G as [|? | ? ? s1 t1 G1 G2| | | | |]; subst. inversion G1; subst. inversion G2 as [|? | ? ? s2 t2 G3 G4| | | | |]; subst.
      inversion G3; subst. inversion G4 as [|? | ? ? s3 t3 G5 G6| | | | |]; subst. inversion G5; subst. exists t3. reflexivity.
    - cbv [rfc_lines In] in M. intuition congruence. }
  intros [W _]. unfold with_one in W. apply Exists_exists in W. destruct W as (t & M & O). destruct (X t O) as [v ->].
  cbn in M. intuition discriminate.
Qed.

(** Assumptions of everything above. *)
Definition theorems := (C62_lines, C62_documents, C62_only_sequence, C62_all_lines_refuted, C62_remote_candidates_refuted,
  C62_spaced_parameters_refuted).
Print Assumptions theorems.

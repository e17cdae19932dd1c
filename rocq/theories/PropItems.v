(** * Theorems about values and items (C17, C19, C21, C34, C35) *)
From Coq Require Import List NArith ZArith Bool Ascii String.
From Verif Require Import Str Num Net Types Ext Show Address AttrParse Media Session.
From Verif Require Import SpecApi SpecDoc SpecVal SpecItems PPanic PVal2 PVal7 PVal10 PVal11.
Import ListNotations.
Open Scope N_scope.
Open Scope list_scope.

(** ** C17: numbers are in range *)
Theorem C17_lines : forall (E : Ext), ext_ok E -> forall line n l,
  parse_sdp_line line n = Ok l -> item_range (l_type l).
Proof. exact @line_range. Qed.

Theorem C17_sessions : forall (E : Ext), ext_ok E -> forall sdp b s,
  parse_sdp sdp b = Ok s -> Forall item_range (session_items s).
Proof. exact @session_range. Qed.

(** Where the items come from: each is what some line of the text means. *)
Theorem C17_items_are_lines : forall (E : Ext) sdp b s, parse_sdp sdp b = Ok s ->
  forall ty, In ty (session_items s) -> exists line, In line (lines sdp) /\ line_means line ty.
Proof. exact @item_means. Qed.

Example C17_example : forall E : Ext,
  (exists l, parse_sdp_line (lit "a=candidate:1 4294967295 UDP 18446744073709551615 ::1 65535 typ host rport 65535") 0 = Ok l) /\
  (exists e, parse_sdp_line (lit "a=candidate:1 1 UDP 1 ::1 65536 typ host") 0 = Err e) /\
  (exists e, parse_sdp_line (lit "a=candidate:1 1 UDP 1 ::1 1 typ host rport 65536") 0 = Err e) /\
  (exists l, parse_sdp_line (lit "a=fmtp:255 profile-level-id=ffffff;packetization-mode=2;tier=1") 0 = Ok l) /\
  (exists e, parse_sdp_line (lit "a=fmtp:96 profile-level-id=1000000") 0 = Err e) /\
  (exists e, parse_sdp_line (lit "a=fmtp:96 packetization-mode=3") 0 = Err e) /\
  (exists l, parse_sdp_line (lit "a=ice-pacing:9999999999") 0 = Ok l) /\
  (exists e, parse_sdp_line (lit "a=ice-pacing:10000000000") 0 = Err e) /\
  (exists e, parse_sdp_line (lit "a=rtpmap:128 opus/48000") 0 = Err e).
Proof. intro E. repeat split; eexists; vm_compute; reflexivity. Qed.

(** ** C19: brackets *)
Theorem C19_tokens : forall s sep toks, parse_imageattr_tokens s sep = Ok toks ->
  (* the tokens and the pieces after the last balanced position make up the text *)
  (exists left, s = join [sep] (toks ++ left) /\ Forall (fun t => ~ In sep t) left /\
     forall p q, left = p ++ q -> p <> [] -> balance p <> 0%Z) /\
  (* each token is balanced, and is not cut too late *)
  Forall (fun t => forall pieces, fields sep t pieces ->
     balance pieces = 0%Z /\
     forall p q, pieces = p ++ q -> p <> [] -> q <> [] -> balance p <> 0%Z) toks /\
  (* without brackets every separator counts *)
  (~ In 91 s -> ~ In 93 s -> fields sep s toks).
Proof. exact tokens_facts. Qed.

Theorem C19_always_tokens : forall s sep, (Z.of_nat (List.length s) < 2147483648)%Z ->
  exists toks, parse_imageattr_tokens s sep = Ok toks.
Proof. exact tokens_defined. Qed.

(** Counting characters instead of pieces: as long as no piece has two brackets
    of a kind, a token has as many opening as closing ones ... *)
Theorem C19_characters : forall s sep toks, sep <> 91 -> sep <> 93 ->
  parse_imageattr_tokens s sep = Ok toks ->
  (forall t pieces, fields sep s pieces -> In t pieces -> count 91 t <= 1 /\ count 93 t <= 1)%nat ->
  Forall (fun t => count 91 t = count 93 t) toks.
Proof. exact tokens_char_balance. Qed.
(** ... but not in general. *)
Theorem C19_characters_refuted : exists s toks,
  parse_imageattr_tokens s 44 = Ok toks /\ ~ Forall (fun t => count 91 t = count 93 t) toks.
Proof.
  exists (lit "[[x=1,y=2],q"), [lit "[[x=1,y=2]"; lit "q"]. split; [reflexivity|].
  intro H. inversion H. discriminate.
Qed.

Example C19_example :
  parse_imageattr_tokens (lit "x=[1,2],y=[3:4],q,[z,w") 44 = Ok [lit "x=[1,2]"; lit "y=[3:4]"; lit "q"] /\
  parse_imageattr_tokens (lit "a,,b") 44 = Ok [lit "a"; []; lit "b"].
Proof. split; reflexivity. Qed.

(** ** C21: fmtp parameters *)
Theorem C21_parameters : forall (E : Ext) pt n block k l,
  numeral u8_max pt n -> core block block -> In 61 block ->
  (parse_sdp_line (lit "a=fmtp:" ++ pt ++ 32 :: block) k = Ok l <->
   exists params p, params_of block params /\ fmtp_list_value params p /\
     l = {| l_number := k;
            l_type := TyAttribute (AFmtp {| fmtp_payload_type := n; fmtp_parameters := p |});
            l_text := lit "a=fmtp:" ++ pt ++ 32 :: block |}).
Proof. exact @params_line. Qed.

Theorem C21_order_irrelevant : forall (E : Ext) pt n b1 b2 ps1 ps2 k p,
  numeral u8_max pt n -> core b1 b1 -> core b2 b2 ->
  params_of b1 ps1 -> params_of b2 ps2 -> reordered ps1 ps2 -> In 61 b1 ->
  parse_sdp_line (lit "a=fmtp:" ++ pt ++ 32 :: b1) k =
    Ok {| l_number := k;
          l_type := TyAttribute (AFmtp {| fmtp_payload_type := n; fmtp_parameters := p |});
          l_text := lit "a=fmtp:" ++ pt ++ 32 :: b1 |} ->
  parse_sdp_line (lit "a=fmtp:" ++ pt ++ 32 :: b2) k =
    Ok {| l_number := k;
          l_type := TyAttribute (AFmtp {| fmtp_payload_type := n; fmtp_parameters := p |});
          l_text := lit "a=fmtp:" ++ pt ++ 32 :: b2 |}.
Proof. exact @params_reordered. Qed.

Theorem C21_rtx_time : forall l t r p, fmtp_list_value (l ++ t :: r) p ->
  fmtp_parameter_named t ["RTX-TIME"%string] ->
  Exists (fun x => fmtp_parameter_named x ["APT"%string]) l.
Proof. exact time_needs_apt. Qed.

Example C21_example_order :
  reordered [lit "max-fs=1"; lit "x=y"; lit "APT=96"; lit "max-fr=2"]
            [lit "x=y"; lit "max-fs=1"; lit "max-fr=2"; lit "APT=96"].
Proof.
  eapply reordered_trans.
  - apply (reordered_swap [] (lit "max-fs=1") (lit "x=y")).
    apply (independent_by (lit "max-fs") (lit "1") (lit "x") (lit "y")); reflexivity.
  - apply (reordered_swap [lit "x=y"; lit "max-fs=1"] (lit "APT=96") (lit "max-fr=2") []).
    apply (independent_by (lit "APT") (lit "96") (lit "max-fr") (lit "2")); reflexivity.
Qed.
Example C21_example : forall E : Ext,
  let params line := match parse_sdp_line line 0 with
    | Ok {| l_type := TyAttribute (AFmtp f) |} => Some (fmtp_parameters f)
    | _ => None
    end in
  params (lit "a=fmtp:97 max-fs=1;x=y;APT=96;max-fr=2") = params (lit "a=fmtp:97 x=y;max-fs=1;max-fr=2;APT=96") /\
  option_map max_fs (params (lit "a=fmtp:97 max-fs=1;Max-Fs=3;max-fr=2")) = Some 3 /\
  option_map unknown_tokens (params (lit "a=fmtp:97 b=2;max-fs=1;a=1=1")) = Some [lit "b=2"; lit "a=1=1"] /\
  option_map rtx (params (lit "a=fmtp:97 apt=96;rtx-time=3000")) =
    Some (Some {| rtx_apt := 96; rtx_time := Some 3000 |}) /\
  params (lit "a=fmtp:97 rtx-time=3000;apt=96") = None.
Proof. intro E. repeat split; vm_compute; reflexivity. Qed.

(** ** C34: equality of addresses *)
Theorem C34_address_equivalence :
  (forall a, address_eqb a a = true) /\
  (forall a b, address_eqb a b = true -> address_eqb b a = true) /\
  (forall a b c, address_eqb a b = true -> address_eqb b c = true -> address_eqb a c = true).
Proof. exact (conj address_eqb_refl (conj address_eqb_sym address_eqb_trans)). Qed.

Theorem C34_typed_equivalence :
  (forall a, typed_address_eqb a a = true) /\
  (forall a b, typed_address_eqb a b = true -> typed_address_eqb b a = true) /\
  (forall a b c, typed_address_eqb a b = true -> typed_address_eqb b c = true -> typed_address_eqb a c = true).
Proof. exact (conj typed_eqb_refl (conj typed_eqb_sym typed_eqb_trans)). Qed.

(** Any names; and exactly for ASCII ones (the host parser gives no others). *)
Theorem C34_case_ignored : forall a b,
  (same_address a b -> address_eqb a b = true) /\
  (ascii_name a -> ascii_name b -> address_eqb a b = true -> same_address a b).
Proof. exact (fun a b => conj (address_eqb_recased a b) (fun Ha Hb => proj1 (address_eqb_iff a b Ha Hb))). Qed.

Theorem C34_typed_case_ignored : forall a b,
  (same_typed_address a b -> typed_address_eqb a b = true) /\
  (ascii_typed_name a -> ascii_typed_name b -> typed_address_eqb a b = true -> same_typed_address a b).
Proof. exact (fun a b => conj (typed_eqb_recased a b) (fun Ha Hb => proj1 (typed_eqb_iff a b Ha Hb))). Qed.

(** IP addresses: no side condition. *)
Theorem C34_ips : forall i,
  (forall b, address_eqb (Ip i) b = true -> b = Ip i) /\
  (forall b, typed_address_eqb (TIp i) b = true -> b = TIp i).
Proof. exact eqb_ips. Qed.

Theorem C34_conversion : forall a b, typed_address_eqb a b = true ->
  address_eqb (address_of_typed a) (address_of_typed b) = true.
Proof. exact of_typed_eqb. Qed.

Example C34_example :
  address_eqb (Fqdn (lit "Example.COM")) (Fqdn (lit "eXAMPLE.com")) = true /\
  address_eqb (Fqdn (lit "example.com")) (Fqdn (lit "example.org")) = false /\
  address_eqb (Ip (V4 1)) (Ip (V6 1)) = false /\
  typed_address_eqb (TFqdn IpV4 (lit "a")) (TFqdn IpV6 (lit "a")) = false.
Proof. repeat split; vm_compute; reflexivity. Qed.

(** ** C35: declared and actual address families *)
Theorem C35_lines : forall (E : Ext) line n l a,
  parse_sdp_line line n = Ok l -> item_address (l_type l) = Some a ->
  exists w1 c w2 v word text, line = w1 ++ [c] ++ w2 ++ 61 :: v /\ blank w1 /\ blank w2 /\
    same_letter c (line_letter (l_type l)) /\ declares v (l_type l) word text /\
    means_upper word (addr_type_name (family a)) /\ reads_typed (family a) text a.
Proof. exact @item_family. Qed.

Theorem C35_sessions : forall (E : Ext) sdp b s ty a,
  parse_sdp sdp b = Ok s -> In ty (session_items s) -> item_address ty = Some a ->
  exists w1 c w2 v word text, In (w1 ++ [c] ++ w2 ++ 61 :: v) (lines sdp) /\ blank w1 /\ blank w2 /\
    same_letter c (line_letter ty) /\ declares v ty word text /\
    means_upper word (addr_type_name (family a)) /\ reads_typed (family a) text a.
Proof. exact @session_families. Qed.

Theorem C35_origin_mismatch : forall (E : Ext) v user id ver net ty addr more x y t i n,
  words v (user :: id :: ver :: net :: ty :: addr :: more) ->
  numeral u64_max id x -> numeral u64_max ver y -> means_upper net "IN" ->
  means_upper ty (addr_type_name t) -> reads_address addr (Ip i) -> ip_family i <> t ->
  parse_sdp_line (lit "o=" ++ v) n =
    Err (PLine (AddressTypeMismatch (ip_family i) t) (lit "o=" ++ v) n).
Proof. exact @origin_mismatch. Qed.

Theorem C35_connection_mismatch : forall (E : Ext) v net ty rest addr opts t i n,
  words v [net; ty; rest] -> means_upper net "IN" -> means_upper ty (addr_type_name t) ->
  fields 47 rest (addr :: opts) ->
  match opts with
  | [] => True
  | [ttl] => exists x, numeral u8_max ttl x
  | ttl :: amount :: _ => (exists x, numeral u8_max ttl x) /\ exists y, numeral u32_max amount y
  end ->
  reads_address addr (Ip i) -> ip_family i <> t ->
  parse_sdp_line (lit "c=" ++ v) n =
    Err (PLine (AddressTypeMismatch (ip_family i) t) (lit "c=" ++ v) n).
Proof. exact @connection_mismatch. Qed.

Theorem C35_rtcp_mismatch : forall (E : Ext) v port net ty addr more x t i n,
  words v (port :: net :: ty :: addr :: more) -> numeral u16_max port x ->
  means_upper net "IN" -> means_upper ty (addr_type_name t) ->
  reads_address addr (Ip i) -> ip_family i <> t ->
  parse_sdp_line (lit "a=rtcp:" ++ v) n =
    Err (PLine (AddressTypeMismatch (ip_family i) t) (lit "a=rtcp:" ++ v) n).
Proof. exact @rtcp_mismatch. Qed.

Example C35_example : forall E : Ext,
  (forall line, In line [lit "o=- 1 2 IN IP4 ::1"; lit "c=in ip4 ::1/3"; lit "a=rtcp:9 IN IP4 ::1"] ->
     parse_sdp_line line 7 = Err (PLine (AddressTypeMismatch IpV6 IpV4) line 7)) /\
  (exists l, parse_sdp_line (lit "a=rtcp:9 IN IP6 ::1") 7 = Ok l /\ item_address (l_type l) = Some (TIp (V6 1))).
Proof.
  intro E. split.
  - intros line [<-|[<-|[<-|[]]]]; vm_compute; reflexivity.
  - eexists. split; vm_compute; reflexivity.
Qed.

(** Assumptions of everything above. *)
Definition theorems :=
  (C17_lines, C17_sessions, C17_items_are_lines, C19_tokens, C19_always_tokens, C19_characters,
   C19_characters_refuted,
   C21_parameters, C21_order_irrelevant, C21_rtx_time,
   C34_address_equivalence, C34_typed_equivalence, C34_case_ignored, C34_typed_case_ignored, C34_ips,
   C34_conversion, C35_lines, C35_sessions, C35_origin_mismatch, C35_connection_mismatch,
   C35_rtcp_mismatch).
Print Assumptions theorems.

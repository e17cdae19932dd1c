(** * Every IP address text is read, as its address, and printed in its one form (C61)

    [Net] contains a reader and a printer for IP addresses, written after the standard
    library's.  Here: which texts are addresses, and which text is printed. *)
From Coq Require Import List NArith Bool Ascii String.
From Verif Require Import Str Num Net Types Ext Show Address AttrParse Media Session SpecVal SpecIp PIp PIp2 PIp3.
Import ListNotations.
Open Scope N_scope.
Open Scope list_scope.

(** What is read: exactly the texts of the RFCs. *)
Theorem C61_ip4_texts : forall s n, parse_ip s = Some (V4 n) <-> ip4_text s n.
Proof. exact ip4_texts. Qed.

Theorem C61_ip6_texts : forall s n, parse_ip s = Some (V6 n) <-> ip6_text s n.
Proof. exact ip6_texts. Qed.

(** A text stands for one address, which is in range. *)
Theorem C61_one_address : forall s a b, ip_text s a -> ip_text s b -> a = b /\ address_value a.
Proof. intros s a b A B. split; [exact (one_address s a b A B) | exact (texts_are_values s a A)]. Qed.

(** An IPv4 address has one text. *)
Theorem C61_ip4_one_text : forall s t n, ip4_text s n -> ip4_text t n -> s = t.
Proof. exact ip4_single. Qed.

(** What is printed: the form of RFC 5952, which is also one of the texts that are read. *)
Theorem C61_printed : forall a s, address_value a -> (show_ip a = s <-> printed_ip a s).
Proof. exact printed_texts. Qed.

Theorem C61_printed_is_text : forall a s, printed_ip a s -> address_value a -> ip_text s a.
Proof. exact printed_is_text. Qed.

(** Where an address is read: a text with a colon that is an IP address is that
    address, anything else is left to the URL host parser. *)
Theorem C61_addresses : forall (E : Ext) s a, address_from_str s = Ok a <->
  (In 58 s /\ exists i, ip_text s i /\ a = Ip i) \/
  (~ (In 58 s /\ exists i, ip_text s i) /\ exists h, host_parse s = Ok h /\ a = host_address h).
Proof. exact @addresses. Qed.

(** In a line: every text of an address gives the same line, printed in the one form. *)
Theorem C61_connection_lines : forall (E : Ext) s n k, ip6_text s n ->
  exists c, parse_sdp_line (lit "c=IN IP6 " ++ s) k =
    Ok {| l_number := k; l_type := TyConnection c; l_text := lit "c=IN IP6 " ++ s |} /\
  conn_address c = TIp (V6 n) /\
  forall t, show_connection c = lit "IN IP6 " ++ t <-> printed_ip (V6 n) t.
Proof.
  intros E s n k H. exists {| conn_address := TIp (V6 n); conn_ttl := None; conn_amount := None |}.
  split; [exact (connection_literals s n k H)|]. split; [reflexivity|]. intro t.
  exact (connection_printed n t (texts_are_values s (V6 n) H)).
Qed.

(** ** Examples *)
Ltac text := first [apply ip6_texts | apply ip4_texts]; vm_compute; reflexivity.
Ltac no_text := let h := fresh in intro h; apply ip_texts in h; vm_compute in h; discriminate h.
Example C61_example_texts :
  ip4_text (lit "192.0.2.1") 3221225985 /\
  ip6_text (lit "2001:DB8::1") 42540766411282592856903984951653826561 /\
  ip6_text (lit "2001:db8:0:0:0:0:0:1") 42540766411282592856903984951653826561 /\
  ip6_text (lit "2001:0db8::0.0.0.1") 42540766411282592856903984951653826561 /\
  ip6_text (lit "1:2:3:4:5:6:7::") 5192455318486707404433266433261568 /\
  ip6_text (lit "::") 0.
Proof. repeat split; text. Qed.
Example C61_example_no_texts : forall a,
  ~ ip_text (lit "192.0.2.01") a /\ ~ ip_text (lit "192.0.2") a /\ ~ ip_text (lit "192.0.2.256") a /\
  ~ ip_text (lit "1::2::3") a /\ ~ ip_text (lit "1:2:3:4:5:6:7:8::") a /\ ~ ip_text (lit "12345::") a /\
  ~ ip_text (lit ":1:2:3:4:5:6:7") a /\ ~ ip_text (lit "::1.2.3.4:5") a /\ ~ ip_text (lit "fe80::1%eth0") a.
Proof. intro a. repeat split; no_text. Qed.
Ltac printed := apply printed_texts; [reflexivity | vm_compute; reflexivity].
Example C61_example_printed :
  printed_ip (V6 42540766411282592856903984951653826561) (lit "2001:db8::1") /\
  printed_ip (V6 281473902969345) (lit "::ffff:192.0.2.1") /\
  (* a single zero group is written; of two equally long runs the first is left out *)
  printed_ip (V6 5192455318486707404433266433261568) (lit "1:2:3:4:5:6:7:0") /\
  printed_ip (V6 5192296858534827628530496329220097) (lit "1::1") /\
  printed_ip (V6 42540766411282592856904266426630537217) (lit "2001:db8::1:0:0:1") /\
  ~ printed_ip (V6 42540766411282592856904266426630537217) (lit "2001:db8:0:0:1::1").
Proof.
  split; [printed|]. split; [printed|]. split; [printed|]. split; [printed|]. split; [printed|].
  intro H. apply printed_texts in H; [|reflexivity]. vm_compute in H. discriminate H.
Qed.
Example C61_example_line : forall E : Ext,
  let c := {| conn_address := TIp (V6 42540766411282592856903984951653826561); conn_ttl := None; conn_amount := None |} in
  parse_sdp_line (lit "c=IN IP6 2001:0DB8:0:0::0.0.0.1") 3 =
    Ok {| l_number := 3; l_type := TyConnection c; l_text := lit "c=IN IP6 2001:0DB8:0:0::0.0.0.1" |} /\
  show_connection c = lit "IN IP6 2001:db8::1".
Proof. intro E. split; vm_compute; reflexivity. Qed.

(** Assumptions of everything above. *)
Definition theorems := (C61_ip4_texts, C61_ip6_texts, C61_one_address, C61_ip4_one_text, C61_printed,
  C61_printed_is_text, C61_addresses, C61_connection_lines).
Print Assumptions theorems.

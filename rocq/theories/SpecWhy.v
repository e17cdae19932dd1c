(** * Specification vocabulary: why lines are refused (C68)

    Only definitions: what can be wrong with a line that is not an attribute,
    in the order in which it is looked for, and the error for it. *)
From Coq Require Import List NArith ZArith Bool Ascii String.
From Verif Require Import Str Num Net Types Ext Show Session SpecApi SpecDoc SpecVal.
Import ListNotations.
Open Scope N_scope.
Open Scope list_scope.

(** A rule: that it is kept, and the errors for breaking it. *)
Definition rule := (Prop * (ierr -> Prop))%type.
Inductive first_broken : list rule -> ierr -> Prop :=
| broken_here : forall (r : rule) rs e, snd r e -> first_broken (r :: rs) e
| broken_later : forall (r : rule) rs e, fst r -> first_broken rs e -> first_broken (r :: rs) e.

Definition complains (text : string) : ierr := EGeneric (of_string text).
(** [p] or else the message. *)
Definition must (p : Prop) (text : string) : rule := (p, fun e => ~ p /\ e = complains text).
(** The rule [r] about word number [i]. *)
Definition about (ws : list str) (i : nat) (r : str -> rule) : rule :=
  (exists w, nth_error ws i = Some w /\ fst (r w), fun e => exists w, nth_error ws i = Some w /\ snd (r w) e).
Definition present (ws : list str) (i : nat) (text : string) : rule :=
  must ((i < List.length ws)%nat) text.

(** ** Numbers *)
(** The first char that is not part of a number, or the first digit with which
    it gets too large. *)
Definition wrong_number (max : N) (s : str) (k : int_err) : Prop :=
  (s = [] /\ k = IntEmpty) \/
  exists sign p c rest, s = sign ++ p ++ c :: rest /\ (sign = [] \/ sign = [43]) /\
    Forall is_digit p /\ dec_value p <= max /\
    ((~ is_digit c /\ ~ (sign = [] /\ p = [] /\ c = 43 /\ rest <> []) /\ k = IntInvalidDigit) \/
     (is_digit c /\ max < dec_value (p ++ [c]) /\ k = IntPosOverflow)).
Definition number (max : N) (s : str) : rule :=
  (exists n, numeral max s n, fun e => exists k, wrong_number max s k /\ e = EInteger k).
Definition decimal (n : N) (d : str) : Prop :=
  d <> [] /\ Forall is_digit d /\ dec_value d = n /\ (forall r, d = 48 :: r -> r = []).

Section WithExt.
Context {E : Ext}.

(** ** Addresses *)
Definition network (s : str) : rule := must (means_upper s "IN") "nettype must be IN".
Definition address_kind (s : str) : rule :=
  must (exists t, means_upper s (addr_type_name t)) "address type must be IP4 or IP6".
Definition wrong_address (s : str) (e : ierr) : Prop :=
  ~ (In 58 s /\ exists i, parse_ip s = Some i) /\
  exists m, host_parse s = Err m /\
    ((In 58 s /\ e = EIpAddress) \/ (~ In 58 s /\ e = EDomain m)).
Definition wrong_typed (t : addr_type) (s : str) (e : ierr) : Prop :=
  wrong_address s e \/
  (t = IpV6 /\ exists n, reads_address s (Ip (V4 n)) /\ e = AddressTypeMismatch IpV4 IpV6) \/
  (t = IpV4 /\ exists n, reads_address s (Ip (V6 n)) /\ e = AddressTypeMismatch IpV6 IpV4).
Definition address_of_kind (ty s : str) : rule :=
  (exists t a, means_upper ty (addr_type_name t) /\ reads_typed t s a,
   fun e => exists t, means_upper ty (addr_type_name t) /\ wrong_typed t s e).

(** ** Lines *)
Definition version_rules (t : str) : list rule :=
  [ number u64_max t;
    (numeral u64_max t 0, fun e => exists n d, numeral u64_max t n /\ n <> 0 /\ decimal n d /\
       e = EGeneric (lit "version type contains unsupported value " ++ d)) ].
Definition origin_rules (ws : list str) : list rule :=
  [ present ws 1 "Origin type is missing session ID token"; about ws 1 (number u64_max);
    present ws 2 "Origin type is missing session version token"; about ws 2 (number u64_max);
    present ws 3 "Origin type is missing network type token"; about ws 3 network;
    present ws 4 "Origin type is missing address type token"; about ws 4 address_kind;
    present ws 5 "Origin type is missing IP address token";
    about ws 5 (fun a => about ws 4 (fun ty => address_of_kind ty a)) ].
(** The number of addresses is looked at before the time to live, and both before
    the address. *)
Definition connection_rules (ws : list str) : list rule :=
  [ must (List.length ws = 3%nat) "connection attribute must have three tokens";
    about ws 0 network; about ws 1 address_kind;
    about ws 2 (fun w => ((exists l, fields 47 w l /\ forall x, nth_error l 2 = Some x -> fst (number u32_max x)),
                          fun e => exists l x, fields 47 w l /\ nth_error l 2 = Some x /\ snd (number u32_max x) e));
    about ws 2 (fun w => ((exists l, fields 47 w l /\ forall x, nth_error l 1 = Some x -> fst (number u8_max x)),
                          fun e => exists l x, fields 47 w l /\ nth_error l 1 = Some x /\ snd (number u8_max x) e));
    about ws 2 (fun w => ((exists a l, fields 47 w (a :: l) /\ fst (about ws 1 (fun ty => address_of_kind ty a))),
                          fun e => exists a l, fields 47 w (a :: l) /\ snd (about ws 1 (fun ty => address_of_kind ty a)) e)) ].
Definition bandwidth_rules (fs : list str) : list rule :=
  [ must (List.length fs = 2%nat) "bandwidth attribute must have two tokens"; about fs 1 (number u32_max) ].
Definition timing_rules (ws : list str) : list rule :=
  [ must (List.length ws = 2%nat) "timing attribute must have two tokens";
    about ws 0 (number u64_max); about ws 1 (number u64_max) ].
(** Unknown kinds and protocols are not errors (C48), but end the search. *)
Definition known (p : Prop) : rule := (p, fun _ => False).
Definition media_rules (ws : list str) : list rule :=
  [ must ((4 <= List.length ws)%nat) "media attribute must have at least four tokens";
    about ws 0 (fun w => known (exists m, means w (media_name m)));
    about ws 1 (fun w => ((exists p l, fields 47 w (p :: l) /\ fst (number u32_max p)),
                          fun e => exists p l, fields 47 w (p :: l) /\ snd (number u32_max p) e));
    about ws 1 (fun w => must (exists p l n, fields 47 w (p :: l) /\ numeral u32_max p n /\ n <= 65535)
                           "media port token is too big");
    about ws 1 (fun w => ((exists l, fields 47 w l /\ forall x, nth_error l 1 = Some x -> fst (number u32_max x)),
                          fun e => exists l x, fields 47 w l /\ nth_error l 1 = Some x /\ snd (number u32_max x) e));
    about ws 2 (fun w => known (exists p, means_upper w (protocol_name p)));
    (True, fun e => exists kind pre f post, nth_error ws 0 = Some kind /\
       (means kind (media_name Audio) \/ means kind (media_name Video)) /\
       skipn 3 ws = pre ++ f :: post /\
       Forall (fun g => exists n, numeral u32_max g n /\ payload_listed n) pre /\
       (snd (number u32_max f) e \/
        (exists n, numeral u32_max f n /\ ~ payload_listed n) /\
        e = complains "format number in media line is out of range")) ].

(** What is wrong with the value of a line of type [c]. *)
Definition obsolete : list (string * string) :=
  [ ("e", "unsupported type email: "); ("i", "unsupported type information: ");
    ("k", "unsupported insecure key exchange: "); ("p", "unsupported type phone: ");
    ("r", "unsupported type repeat: "); ("u", "unsupported type uri: "); ("z", "unsupported type zone: ") ]%string.
Definition of_type (c : char) (name : string) : Prop := exists d, of_string name = [d] /\ same_letter c d.
Definition value_wrong (c : char) (v : str) (e : ierr) : Prop :=
  (of_type c "b" /\ exists t fs, core v t /\ fields 58 t fs /\ first_broken (bandwidth_rules fs) e) \/
  (of_type c "c" /\ exists ws, words v ws /\ first_broken (connection_rules ws) e) \/
  (of_type c "m" /\ exists ws, words v ws /\ first_broken (media_rules ws) e) \/
  (of_type c "o" /\ exists ws, words v ws /\ first_broken (origin_rules ws) e) \/
  (of_type c "t" /\ exists ws, words v ws /\ first_broken (timing_rules ws) e) \/
  (of_type c "v" /\ exists t, core v t /\ first_broken (version_rules t) e) \/
  (exists name text t, In (name, text) obsolete /\ of_type c name /\ core v t /\ e = EGeneric (of_string text ++ t)) \/
  (Forall (fun name => ~ of_type c name)
     ["a"; "b"; "c"; "e"; "i"; "k"; "m"; "o"; "p"; "r"; "s"; "t"; "u"; "v"; "z"]%string /\
   e = complains "unknown sdp type").
Definition line_wrong (line : str) (e : ierr) : Prop :=
  (~ In 61 line /\ e = complains "missing = character in line") \/
  exists t v k, cut 61 line t v /\ core t k /\
    ((k = [] /\ e = complains "type is empty") \/
     ((exists c r, k = c :: r /\ (128 <= c \/ r <> [])) /\ e = complains "type too long") \/
     exists c, k = [c] /\ c < 128 /\
       ((blank v /\ ~ of_type c "s" /\ e = complains "value is empty") \/
        (~ blank v /\ value_wrong c v e))).
(** Attribute lines (with a value). *)
Definition attribute_line (line : str) : Prop :=
  exists w1 c w2 v, line = w1 ++ [c] ++ w2 ++ 61 :: v /\ blank w1 /\ blank w2 /\ ~ blank v /\ of_type c "a".
End WithExt.

(** The texts of such errors. *)
Definition line_messages : list string :=
  [ "missing = character in line"; "type is empty"; "type too long"; "value is empty"; "unknown sdp type";
    "Origin type is missing session ID token"; "Origin type is missing session version token";
    "Origin type is missing network type token"; "Origin type is missing address type token";
    "Origin type is missing IP address token"; "nettype must be IN"; "address type must be IP4 or IP6";
    "connection attribute must have three tokens"; "bandwidth attribute must have two tokens";
    "timing attribute must have two tokens"; "media attribute must have at least four tokens";
    "media port token is too big"; "format number in media line is out of range" ]%string.
Definition line_prefixes : list string :=
  [ "version type contains unsupported value "; "unsupported type email: "; "unsupported type information: ";
    "unsupported insecure key exchange: "; "unsupported type phone: "; "unsupported type repeat: ";
    "unsupported type uri: "; "unsupported type zone: " ]%string.

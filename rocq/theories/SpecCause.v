(** * Specification vocabulary: why attributes are refused (C69)

    Only definitions: what can be wrong with an attribute line, in the order in
    which it is looked for, and the error for it (see SpecWhy for other lines). *)
From Coq Require Import List NArith ZArith Bool Ascii String.
From Verif Require Import Str Num Net Types Ext Show Session SpecApi SpecDoc SpecVal SpecWarn SpecWhy.
Import ListNotations.
Open Scope N_scope.
Open Scope list_scope.

(** ** Combining rules *)
(** All of them, in this order. *)
Definition all (rs : list rule) : rule := (Forall fst rs, first_broken rs).
Definition each (r : str -> rule) (l : list str) : rule := all (map r l).
(** For each item, with the items before it. *)
Fixpoint running (r : list str -> str -> rule) (seen l : list str) : list rule :=
  match l with [] => [] | x :: l' => r seen x :: running r (seen ++ [x]) l' end.
Definition when (p : Prop) (r : rule) : rule := (p -> fst r, fun e => p /\ snd r e).
Definition say (p : Prop) (text : str) : rule := (p, fun e => ~ p /\ e = EGeneric text).
(** The words or fields of a text; what is before and after its first separator. *)
Definition in_words (v : str) (r : list str -> rule) : rule :=
  (exists ws, words v ws /\ fst (r ws), fun e => exists ws, words v ws /\ snd (r ws) e).
Definition in_fields (sep : N) (v : str) (r : list str -> rule) : rule :=
  (exists fs, fields sep v fs /\ fst (r fs), fun e => exists fs, fields sep v fs /\ snd (r fs) e).
Definition before (sep : N) (v : str) (r : str -> rule) : rule := in_fields sep v (fun fs => about fs 0 r).
Definition at_cut (sep : N) (v : str) (r : str -> str -> rule) : rule :=
  (forall a b, cut sep v a b -> fst (r a b), fun e => exists a b, cut sep v a b /\ snd (r a b) e).
Definition after_prefix (p v : str) (r : str -> rule) : rule :=
  (forall x, v = p ++ x -> fst (r x), fun e => exists x, v = p ++ x /\ snd (r x) e).
(** The rule for a name, if there is one. *)
Definition by_name (is : str -> string -> Prop) (table : list (string * rule)) (n : str) : rule :=
  (forall w r, In (w, r) table -> is n w -> fst r, fun e => exists w r, In (w, r) table /\ is n w /\ snd r e).

(** ** Values *)
(** Hexadecimal numbers, as [wrong_number]. *)
Definition hex_value (ds : list N) : N := fold_left (fun a d => 16 * a + d) ds 0.
Definition wrong_hex (max : N) (s : str) (k : int_err) : Prop :=
  (s = [] /\ k = IntEmpty) \/
  exists sign p ds c rest, s = sign ++ p ++ c :: rest /\ (sign = [] \/ sign = [43]) /\
    Forall2 hex_digit p ds /\ hex_value ds <= max /\
    (((forall d, ~ hex_digit c d) /\ ~ (sign = [] /\ p = [] /\ c = 43 /\ rest <> []) /\ k = IntInvalidDigit) \/
     (exists d, hex_digit c d /\ max < hex_value (ds ++ [d]) /\ k = IntPosOverflow)).
Definition hex_number (max : N) (s : str) : rule :=
  (exists n, hex_numeral max s n, fun e => exists k, wrong_hex max s k /\ e = EInteger k).
(** A number up to [max] in the reading, and up to [bound] for its use. *)
Definition small_number (max bound : N) (text : string) (s : str) : rule :=
  all [ number max s; must (exists n, numeral max s n /\ n <= bound) text ].
Definition filled (text : string) (s : str) : rule := must (s <> []) text.
Definition direction_word (w : str) : rule :=
  say (exists d, is_word w (single_direction_name d)) (lit "Unknown direction description found: '" ++ w ++ lit "'").
Definition payload (w : str) : rule :=
  (exists p, payload_value w p, fun e => ~ is_word w "*" /\ snd (number u8_max w) e).
(** Quoted text (see SpecWarn; chars beyond ASCII are quoted as in the model). *)
Definition quotes (s q : str) : Prop := (ascii_text s /\ quoted s q) \/ (~ ascii_text s /\ q = debug_str s).
Definition say_quoted (p : Prop) (text : string) (s : str) (text' : string) : rule :=
  (p, fun e => ~ p /\ exists q, quotes s q /\ e = EGeneric (of_string text ++ q ++ of_string text')).

Section WithExt.
Context {E : Ext}.

Definition address_text (s : str) : rule := (exists a, reads_address s a, wrong_address s).
Definition float32 (s : str) : rule :=
  (exists x, parse_f32 s = Ok x, fun e => exists m, parse_f32 s = Err m /\ e = EFloat m).
Definition float64 (s : str) : rule :=
  (exists x, parse_f64 s = Ok x, fun e => exists m, parse_f64 s = Err m /\ e = EFloat m).

Definition family_word (w : str) : rule :=
  (exists t, means_upper w (addr_type_name t),
   fun e => ~ (exists t, means_upper w (addr_type_name t)) /\ e = UnknownAddressType w).

(** ** Attributes of words *)
Definition extension (name value : str) : rule :=
  by_name means
    [ ("generation", number u32_max value); ("network-cost", number u32_max value);
      ("raddr", address_text value);
      ("rport", small_number u32_max 65535 "ICE candidate rport can only be a bit 16bit number" value);
      ("tcptype", must (exists t, means value (tcp_type_name t)) "Unknown tcptype value in candidate line") ]%string
    name.
(** A name without value at the end is not an error (C48). *)
Fixpoint extensions (ws : list str) : list rule :=
  match ws with
  | [] => []
  | [_] => [known False]
  | n :: v :: ws' => extension n v :: extensions ws'
  end.
Definition candidate_rule (v : str) : rule := in_words v (fun ws => all (
  [ must ((8 <= List.length ws)%nat) "Candidate needs to have minimum eigth tokens";
    about ws 1 (number u32_max);
    about ws 2 (fun w => must (exists t, means w (transport_name t)) "Unknonw candidate transport value");
    about ws 3 (number u64_max); about ws 4 address_text;
    about ws 5 (small_number u32_max 65535 "ICE candidate port can only be a bit 16bit number");
    about ws 6 (fun w => must (means w "typ") "Candidate attribute token must be 'typ'");
    about ws 7 (fun w => must (exists t, means w (cand_type_name t)) "Unknow candidate type value");
    all (extensions (skipn 8 ws)) ])).
Definition remote_candidates_rule (v : str) : rule := in_words v (fun ws => all
  [ present ws 0 "Remote-candidate attribute is missing component ID"; about ws 0 (number u32_max);
    present ws 1 "Remote-candidate attribute is missing connection address"; about ws 1 address_text;
    present ws 2 "Remote-candidate attribute is missing port number";
    about ws 2 (small_number u32_max 65535 "Remote-candidate port can only be a bit 16bit number") ]).
Definition extmap_rule (v : str) : rule := in_words v (fun ws => all
  [ must ((2 <= List.length ws)%nat) "Extmap needs to have at least two tokens";
    about ws 0 (fun w => before 47 w (number u16_max));
    about ws 0 (fun w => at_cut 47 w (fun _ d =>
      must (exists x, means d (direction_name x)) "Unsupported direction in extmap value"));
    must (Forall (fun w => ~ In 0 w) (skipn 2 ws)) "Illegal character in extmap extension attributes" ]).
Definition octet (t : str) : rule :=
  all [ must (byte_len t = 2) "fingerpint's byte tokens must have 2 hexdigits"; hex_number 255 t ].
Definition fingerprint_rule (v : str) : rule := in_words v (fun ws => all
  [ must (List.length ws = 2%nat) "Fingerprint needs to have two tokens";
    about ws 0 (fun w => known (exists h, is_word w (hash_name h)));
    about ws 1 (fun w => in_fields 58 w (fun bs => all
      [ each octet bs;
        about ws 0 (fun hw =>
          (exists h, is_word hw (hash_name h) /\ List.length bs = hash_octets h,
           fun e => exists h d1 d2, is_word hw (hash_name h) /\ List.length bs <> hash_octets h /\
             decimal (N.of_nat (List.length bs)) d1 /\ decimal (N.of_nat (hash_octets h)) d2 /\
             e = EGeneric (lit "fingerprint has " ++ d1 ++ lit " bytes but should have " ++ d2 ++ lit " bytes"))) ])) ]).
Definition group_rule (v : str) : rule := in_words v (fun ws => all
  [ present ws 0 "Group attribute is missing semantics token";
    about ws 0 (fun w => known (exists g, means_upper w (group_name g))) ]).
Definition ssrc_group_rule (v : str) : rule := in_words v (fun ws => all
  [ present ws 0 "Ssrc group attribute is missing semantics";
    about ws 0 (fun w => known (exists g, means_upper w (ssrc_group_name g)));
    each (number u32_max) (tl ws);
    must (tl ws <> []) "Ssrc group must contain at least one ssrc" ]).
Definition msid_rule (v : str) : rule :=
  in_words v (fun ws => present ws 0 "Msid attribute is missing msid-id token").
Definition msid_semantic_rule (v : str) : rule :=
  in_words v (fun ws => present ws 0 "Msid-semantic attribute is missing msid-semantic token").
Definition rtpmap_rule (v : str) : rule := in_words v (fun ws => all
  [ present ws 0 "Rtpmap missing payload type";
    about ws 0 (small_number u8_max 127 "Rtpmap payload type must be less then 127");
    present ws 1 "Rtpmap missing payload type";
    about ws 1 (fun w => in_fields 47 w (fun fs => all
      [ present fs 1 "Rtpmap missing codec name"; about fs 1 (number u32_max);
        when ((2 < List.length fs)%nat) (about fs 2 (number u32_max)) ])) ]).
Definition rtcp_rule (v : str) : rule := in_words v (fun ws => all
  [ present ws 0 "Rtcp attribute is missing port number"; about ws 0 (number u16_max);
    when ((1 < List.length ws)%nat) (all
      [ about ws 1 network;
        present ws 2 "Rtcp attribute is missing address type token"; about ws 2 family_word;
        present ws 3 "Rtcp attribute is missing ip address token";
        about ws 3 (fun a => about ws 2 (fun ty => address_of_kind ty a)) ]) ]).
Definition sctpmap_rule (v : str) : rule := in_words v (fun ws => all
  [ must (List.length ws = 3%nat) "Sctpmap needs to have three tokens";
    about ws 0 (number u16_max);
    about ws 1 (fun w => must (means w "webrtc-datachannel") "Unsupported sctpmap type token");
    about ws 2 (number u32_max) ]).
Definition simulcast_list (w : str) : rule := at_cut 61 w (fun d _ =>
  say_quoted (is_word d "rid") "Simulcast attribute has unknown list descriptor '" d "'").
Definition simulcast_rule (v : str) : rule := in_words v (fun ws => all
  [ present ws 0 "Simulcast attribute is missing send/recv value"; about ws 0 direction_word;
    present ws 1 "Simulcast attribute must have an alternatives list after the direction token";
    about ws 1 simulcast_list;
    when ((2 < List.length ws)%nat) (all
      [ about ws 2 direction_word;
        must (nth_error ws 2 <> nth_error ws 0) "Simulcast attribute has defined two times the same direction";
        present ws 3 """Simulcast has defined a second direction but""""no second list of simulcast stream versions""";
        about ws 3 simulcast_list ]) ]).

(** ** Attributes of other texts *)
Definition dtls_rule (v : str) : rule := in_fields 32 v (fun fs => all
  [ must (List.length fs = 2%nat) "dtls-message must have a role token and a value token.";
    about fs 0 (fun w => say (is_word w "client" \/ is_word w "server")
      (lit "dtls-message has unknown role token '" ++ w ++ lit "'")) ]).
Definition sctp_port_rule (v : str) : rule := all
  [ number u64_max v;
    (exists n, numeral u64_max v n /\ n <= 65535,
     fun e => exists n d, numeral u64_max v n /\ 65535 < n /\ decimal n d /\
       e = EGeneric (lit "Sctpport port " ++ d ++ lit " can only be a bit 16bit number")) ].
Definition framerate_rule (v : str) : rule :=
  let fits p := exists x, parse_f64 v = Ok x /\ p x = false in all
  [ float64 v; must (fits f64_is_nan) "FrameRate attribute must be a number";
    must (fits f64_is_infinite) "FrameRate attribute cannot be finite";
    must (fits f64_is_zero) "FrameRate attribute cannot be zero" ].
Definition ssrc_rule (v : str) : rule := before 32 v (number u32_max).
Definition trr_int (p : option str) : rule :=
  match p with
  | None => must False "The rtcpfb trr-int feedback type needs a parameter"
  | Some x => say_quoted (exists n, numeral u32_max x n) "Unknown rtcpfb trr-int parameter: " x ""
  end.
Definition rtcp_fb_rules (fs : list str) : rule := all
  [ present fs 1 "Error parsing rtcpfb: no feedback type";
    about fs 1 (fun w => known (exists k, is_word w (fb_name k)));
    about fs 1 (fun w => when (is_word w (fb_name FbTrrInt)) (trr_int (nth_error fs 2)));
    about fs 1 (fun w => when (~ is_word w (fb_name FbTrrInt))
      (known (exists k, is_word w (fb_name k) /\ fb_parameter_ok k (nth_error fs 2))));
    about fs 0 payload ].
Definition in_parts (n : nat) (v : str) (r : list str -> rule) : rule :=
  (exists fs, space_parts n v fs /\ fst (r fs), fun e => exists fs, space_parts n v fs /\ snd (r fs) e).
Definition rtcp_fb_rule (v : str) : rule :=
  in_parts 4 v rtcp_fb_rules.

(** ** fmtp *)
Definition fmtp_flag (name : string) (v : str) : rule := all
  [ number u8_max v;
    say (exists n, numeral u8_max v n /\ n <= 1)
      (lit "The fmtp parameter '" ++ of_string name ++ lit "' must be 0 or 1") ].
Definition fmtp_table (seen : list str) (v : str) : list (string * rule) :=
  [ ("PROFILE-LEVEL-ID", all [ hex_number u32_max v; must (exists n, hex_numeral u32_max v n /\ n <= 16777215)
       "The fmtp parameter 'profile-level-id' must be in range [0,0xffffff]" ]);
    ("PACKETIZATION-MODE", small_number u32_max 2 "The fmtp parameter 'packetization-mode' must be 0,1 or 2" v);
    ("LEVEL-ASYMMETRY-ALLOWED", fmtp_flag "level-asymmetry-allowed" v);
    ("MAX-MBPS", number u32_max v); ("MAX-FS", number u32_max v); ("MAX-CPB", number u32_max v);
    ("MAX-DPB", number u32_max v); ("MAX-BR", number u32_max v); ("MAX-FR", number u32_max v);
    ("PROFILE", small_number u8_max 2 "The fmtp parameter 'profile' must be in the range [0,2]" v);
    ("LEVEL-IDX", small_number u8_max 31 "The fmtp parameter 'level-idx' must be in the range [0,31]" v);
    ("TIER", small_number u8_max 1 "The fmtp parameter 'tier' must be in the range [0,1]" v);
    ("MAXPLAYBACKRATE", number u32_max v); ("MAXAVERAGEBITRATE", number u32_max v); ("PTIME", number u32_max v);
    ("MAXPTIME", number u32_max v); ("MINPTIME", number u32_max v);
    ("USEDTX", fmtp_flag "usedtx" v); ("STEREO", fmtp_flag "stereo" v);
    ("USEINBANDFEC", fmtp_flag "useinbandfec" v); ("CBR", fmtp_flag "cbr" v); ("APT", number u8_max v);
    ("RTX-TIME", all
       [ must (exists t n x, In t seen /\ cut 61 t n x /\ means_upper n "APT") "RTX codec must have an APT field";
         number u32_max v ]) ]%string.
Definition fmtp_parameter_rule (seen : list str) (t : str) : rule := all
  [ must (In 61 t) "A fmtp parameter must be either a telephone event, a parameter list or a red codec list";
    at_cut 61 t (fun n v => by_name means_upper (fmtp_table seen v) n) ].
Definition fmtp_block_rule (b : str) : rule := all
  [ when (In 61 b) (in_fields 59 b (fun ts => all (running fmtp_parameter_rule []
      (filter (fun x => match x with [] => false | _ => true end) ts))));
    when (~ In 61 b /\ In 47 b)
      (in_fields 47 b (each (small_number u8_max 128 "Red codec must be in range [0,128]"))) ].
(** Without a space it is not an error (C48).  The payload type is judged last. *)
Definition fmtp_rule (v : str) : rule := all
  [ known (In 32 v); at_cut 32 v (fun _ b => fmtp_block_rule b); before 32 v (number u8_max) ].

(** ** rid *)
Definition rid_parameter_rule (t : str) : rule := all
  [ must (In 61 t) "A rid parameter needs to be of form 'param=value'";
    at_cut 61 t (fun n v => by_name is_word
      [ ("max-width", number u32_max v); ("max-height", number u32_max v); ("max-fps", number u32_max v);
        ("max-fs", number u32_max v); ("max-br", number u32_max v); ("max-pps", number u32_max v) ]%string n) ].
Definition trimmed (s : str) (r : str -> rule) : rule :=
  (exists t, core s t /\ fst (r t), fun e => exists t, core s t /\ snd (r t) e).
Definition rid_parameters_rule (p : str) : rule := in_fields 59 p (fun ps => all
  [ about ps 0 (fun f => after_prefix (lit "pt=") f (fun l => in_fields 44 l
      (each (fun t => trimmed t (number u16_max)))));
    when (exists x, nth_error ps 0 = Some (lit "pt=" ++ x)) (each rid_parameter_rule (tl ps));
    when (~ exists x, nth_error ps 0 = Some (lit "pt=" ++ x)) (each rid_parameter_rule ps) ]).
(** The direction is judged after the parameters. *)
Definition rid_rule (v : str) : rule := in_parts 3 v (fun fs => all
  [ present fs 1 "A rid attribute must at least have an id and a direction token.";
    when ((2 < List.length fs)%nat) (about fs 2 rid_parameters_rule);
    about fs 1 direction_word ]).

(** ** imageattr *)
Definition in_brackets (sep : N) (v : str) (r : list str -> rule) : rule :=
  (exists ts, bracket_tokens sep v ts /\ fst (r ts), fun e => exists ts, bracket_tokens sep v ts /\ snd (r ts) e).
Definition opens (s : str) : Prop := exists r, s = 91 :: r.
(** In brackets, or else the message. *)
Definition enclosed (s : str) (text : string) (r : str -> rule) : rule := all
  [ must (exists i, braced s i) text;
    (forall i, braced s i -> fst (r i), fun e => exists i, braced s i /\ snd (r i) e) ].
Definition xy_rule (s : str) : rule := all
  [ when (~ opens s) (number u32_max s);
    when (opens s) (enclosed s "imageattr's xyrange has no closing tag ']'" (fun i => all
      [ when (In 58 i) (in_fields 58 i (fun fs => all
          [ must (List.length fs = 2%nat \/ List.length fs = 3%nat) "imageattr's xyrange must contain 2 or 3 fields";
            about fs 0 (number u32_max);
            when (List.length fs = 3%nat) (about fs 2 (number u32_max));
            about fs 1 (number u32_max) ]));
        when (~ In 58 i) (in_fields 44 i (fun fs => all
          [ each (number u32_max) fs;
            must ((2 <= List.length fs)%nat) "imageattr's discrete value list must have at least two elements" ])) ])) ].
Definition float_range_rule (i : str) : rule := in_fields 45 i (fun fs => all
  [ must (List.length fs = 2%nat) "imageattr's par and sar ranges must have two components";
    about fs 0 float32; about fs 1 float32;
    must (exists x y, float_range i x y) "In imageattr's par and sar ranges, first must be < than the second" ]).
Definition sar_rule (s : str) : rule := all
  [ when (~ opens s) (float32 s);
    when (opens s) (enclosed s "imageattr's sar value is missing closing tag ']'" (fun i => all
      [ when (In 45 i) (float_range_rule i);
        when (~ In 45 i /\ In 44 i) (in_fields 44 i (fun fs => all
          [ each float32 fs;
            must (exists l, Forall2 (fun t x => parse_f32 t = Ok x) fs l /\ ascends 0 l)
              "imageattr's sar discrete value list must contain ascending values" ])) ])) ].
Definition par_rule (s : str) : rule := all
  [ must (opens s) "imageattr's par value must start with '['";
    enclosed s "imageattr's par value must be enclosed with ']'" float_range_rule ].
Definition image_key (t : str) : rule := all
  [ after_prefix (lit "sar=") t sar_rule; after_prefix (lit "par=") t par_rule; after_prefix (lit "q=") t float32 ].
Definition image_set_rule (s : str) : rule :=
  enclosed s "imageattr sets must be enclosed by ']'" (fun i => in_brackets 44 i (fun ts => all
    [ present ts 0 "imageattr set is missing the 'x=' token";
      about ts 0 (fun t => must (exists x, t = lit "x=" ++ x) "The first token in an imageattr set must begin with 'x='");
      about ts 0 (fun t => after_prefix (lit "x=") t xy_rule);
      present ts 1 "imageattr set is missing the 'y=' token";
      about ts 1 (fun t => must (exists x, t = lit "y=" ++ x) "The second token in an imageattr set must begin with 'y='");
      about ts 1 (fun t => after_prefix (lit "y=") t xy_rule);
      each image_key (skipn 2 ts) ])).
(** A list of sets: "*", or a set and all further tokens that open a bracket. *)
Definition set_list (l first more : list str) : Prop :=
  l = first ++ more /\
  ((exists s, first = [s] /\ is_word s "*") \/
   (exists s ss, first = s :: ss /\ ~ is_word s "*" /\ Forall opens ss /\
      match more with [] => True | t :: _ => ~ opens t end)).
Definition image_list (l : list str) (next : list str -> rule) : rule := all
  [ must (l <> []) "imageattr must have a parameter set after a direction token";
    (forall first more, set_list l first more ->
       (first = [lit "*"] \/ fst (each image_set_rule first)) /\ fst (next more),
     fun e => exists first more, set_list l first more /\
       ((first <> [lit "*"] /\ snd (each image_set_rule first) e) \/
        ((first = [lit "*"] \/ fst (each image_set_rule first)) /\ snd (next more) e))) ].
Definition image_attr_rule (v : str) : rule := in_brackets 32 v (fun ts => all
  [ present ts 0 "imageattr requires a payload token"; about ts 0 payload;
    present ts 1 "imageattr's second token must be a direction token"; about ts 1 direction_word;
    image_list (skipn 2 ts) (fun more => when (more <> []) (all
      [ about more 0 direction_word;
        must (nth_error more 0 <> nth_error ts 1) "imageattr's second direction token must be different from the first one";
        image_list (tl more) (fun more' => must (more' = [])
          "imageattr must not contain any token after the second set list") ])) ]).

(** ** All attributes *)
Definition attribute_table (v : str) : list (string * rule) :=
  [ ("candidate", candidate_rule v); ("dtls-message", dtls_rule v); ("extmap", extmap_rule v);
    ("fingerprint", fingerprint_rule v); ("fmtp", fmtp_rule v); ("framerate", framerate_rule v);
    ("group", group_rule v); ("ice-options", filled "ice-options is required to have a value" v);
    ("ice-pacing", small_number u64_max 9999999999 "ice-pacing value is not a 10 digit integer" v);
    ("ice-pwd", filled "This attribute is required to have a value" v);
    ("ice-ufrag", filled "This attribute is required to have a value" v);
    ("identity", filled "This attribute is required to have a value" v);
    ("imageattr", image_attr_rule v);
    ("label", filled "This attribute is required to have a value" v);
    ("max-message-size", number u64_max v); ("maxptime", number u64_max v);
    ("mid", filled "This attribute is required to have a value" v);
    ("msid", msid_rule v); ("msid-semantic", msid_semantic_rule v); ("ptime", number u64_max v);
    ("rid", rid_rule v); ("remote-candidates", remote_candidates_rule v); ("rtpmap", rtpmap_rule v);
    ("rtcp", rtcp_rule v); ("rtcp-fb", rtcp_fb_rule v); ("sctpmap", sctpmap_rule v);
    ("sctp-port", sctp_port_rule v);
    ("setup", must (exists x, means v (setup_name x)) "Unsupported setup value");
    ("simulcast", simulcast_rule v); ("ssrc", ssrc_rule v); ("ssrc-group", ssrc_group_rule v) ]%string.
Definition flags : list string :=
  [ "bundle-only"; "end-of-candidates"; "extmap-allow-mixed"; "ice-lite"; "ice-mismatch"; "inactive"; "recvonly";
    "rtcp-mux"; "rtcp-mux-only"; "rtcp-rsize"; "sendonly"; "sendrecv" ]%string.
(** The text after a=: a name alone is read as having the empty value. *)
Definition attribute_wrong (v : str) (e : ierr) : Prop :=
  exists t, core v t /\
    ((exists n rest f, cut 58 t n rest /\ In f flags /\ means n f /\
        e = EGeneric (of_string f ++ lit " attribute is not allowed to have a value")) \/
     (exists n rest x, cut 58 t n rest /\ core rest x /\ snd (by_name means (attribute_table x) n) e) \/
     (~ In 58 t /\ snd (by_name means (attribute_table []) t) e)).
Definition attribute_line_wrong (line : str) (e : ierr) : Prop :=
  exists w1 c w2 v, line = w1 ++ [c] ++ w2 ++ 61 :: v /\ blank w1 /\ blank w2 /\ ~ blank v /\ of_type c "a" /\
    attribute_wrong v e.
(** Every line that is refused, and why. *)
Definition refused (line : str) (e : ierr) : Prop :=
  attribute_line_wrong line e \/ (~ attribute_line line /\ line_wrong line e).
End WithExt.

(** The texts of such errors, and how other texts begin. *)
Definition attribute_messages : list string :=
  [ "ICE candidate rport can only be a bit 16bit number"; "Unknown tcptype value in candidate line";
    "Candidate needs to have minimum eigth tokens"; "Unknonw candidate transport value";
    "ICE candidate port can only be a bit 16bit number"; "Candidate attribute token must be 'typ'";
    "Unknow candidate type value"; "Remote-candidate attribute is missing component ID";
    "Remote-candidate attribute is missing connection address"; "Remote-candidate attribute is missing port number";
    "Remote-candidate port can only be a bit 16bit number"; "Extmap needs to have at least two tokens";
    "Unsupported direction in extmap value"; "Illegal character in extmap extension attributes";
    "fingerpint's byte tokens must have 2 hexdigits"; "Fingerprint needs to have two tokens";
    "Group attribute is missing semantics token"; "Ssrc group attribute is missing semantics";
    "Ssrc group must contain at least one ssrc"; "Msid attribute is missing msid-id token";
    "Msid-semantic attribute is missing msid-semantic token"; "Rtpmap missing payload type";
    "Rtpmap payload type must be less then 127"; "Rtpmap missing codec name"; "Rtcp attribute is missing port number";
    "Rtcp attribute is missing address type token"; "Rtcp attribute is missing ip address token";
    "Sctpmap needs to have three tokens"; "Unsupported sctpmap type token";
    "Simulcast attribute is missing send/recv value";
    "Simulcast attribute must have an alternatives list after the direction token";
    "Simulcast attribute has defined two times the same direction";
    """Simulcast has defined a second direction but""""no second list of simulcast stream versions""";
    "dtls-message must have a role token and a value token."; "FrameRate attribute must be a number";
    "FrameRate attribute cannot be finite"; "FrameRate attribute cannot be zero";
    "The rtcpfb trr-int feedback type needs a parameter"; "Error parsing rtcpfb: no feedback type";
    "The fmtp parameter 'profile-level-id' must be in range [0,0xffffff]";
    "The fmtp parameter 'packetization-mode' must be 0,1 or 2";
    "The fmtp parameter 'profile' must be in the range [0,2]";
    "The fmtp parameter 'level-idx' must be in the range [0,31]";
    "The fmtp parameter 'tier' must be in the range [0,1]"; "RTX codec must have an APT field";
    "A fmtp parameter must be either a telephone event, a parameter list or a red codec list";
    "Red codec must be in range [0,128]"; "A rid parameter needs to be of form 'param=value'";
    "A rid attribute must at least have an id and a direction token."; "imageattr's xyrange has no closing tag ']'";
    "imageattr's xyrange must contain 2 or 3 fields";
    "imageattr's discrete value list must have at least two elements";
    "imageattr's par and sar ranges must have two components";
    "In imageattr's par and sar ranges, first must be < than the second";
    "imageattr's sar value is missing closing tag ']'";
    "imageattr's sar discrete value list must contain ascending values"; "imageattr's par value must start with '['";
    "imageattr's par value must be enclosed with ']'"; "imageattr sets must be enclosed by ']'";
    "imageattr set is missing the 'x=' token"; "The first token in an imageattr set must begin with 'x='";
    "imageattr set is missing the 'y=' token"; "The second token in an imageattr set must begin with 'y='";
    "imageattr must have a parameter set after a direction token"; "imageattr requires a payload token";
    "imageattr's second token must be a direction token";
    "imageattr's second direction token must be different from the first one";
    "imageattr must not contain any token after the second set list"; "ice-options is required to have a value";
    "ice-pacing value is not a 10 digit integer"; "This attribute is required to have a value";
    "Unsupported setup value"; "nettype must be IN" ]%string.
Definition attribute_prefixes : list string :=
  [ "Unknown direction description found: '"; "fingerprint has "; "Simulcast attribute has unknown list descriptor '";
    "dtls-message has unknown role token '"; "Sctpport port "; "Unknown rtcpfb trr-int parameter: ";
    "The fmtp parameter '" ]%string.
Definition listed_text (m : str) : Prop :=
  In m (map of_string attribute_messages) \/
  (exists p t, In p attribute_prefixes /\ m = of_string p ++ t) \/
  (exists f, In f flags /\ m = of_string f ++ lit " attribute is not allowed to have a value").

(** * Specification vocabulary for the anonymizer properties (C26-C33)

    Only definitions; written independently of how Anon.v does the masking. *)
From Coq Require Import List NArith Bool Ascii String.
From Verif Require Import Str Num Net Types Anon.
Import ListNotations.
Open Scope N_scope.
Open Scope list_scope.

(** Anything the public API can mask.  A history of calls on one anonymizer is a
    list of such values. *)
Inductive aval :=
| VHost (h : str) | VIp (i : ip) | VAddress (x : address) | VTyped (x : typed_address)
| VPort (p : N) | VOriginUser (u : str) | VIcePwd (p : str) | VIceUser (u : str)
| VFp (b : list N) | VCname (c : str)
| VCandidate (c : candidate) | VRemote (c : remote_candidate) | VFingerprint (f : fingerprint)
| VSsrc (s : ssrc) | VAttr (x : attr) | VConnection (c : connection) | VOrigin (o : origin)
| VMedia (m : media) | VSession (s : session).

(** The API call that masks the value: its result and the anonymizer after it. *)
Definition mask_val (v : aval) (a : anon) : aval * anon :=
  match v with
  | VHost h => let '(r, a) := mask_host h a in (VHost r, a)
  | VIp i => let '(r, a) := mask_ip i a in (VIp r, a)
  | VAddress x => let '(r, a) := mask_address x a in (VAddress r, a)
  | VTyped x => let '(r, a) := mask_typed_address x a in (VTyped r, a)
  | VPort p => let '(r, a) := mask_port p a in (VPort r, a)
  | VOriginUser u => let '(r, a) := mask_origin_user u a in (VOriginUser r, a)
  | VIcePwd u => let '(r, a) := mask_ice_password u a in (VIcePwd r, a)
  | VIceUser u => let '(r, a) := mask_ice_user u a in (VIceUser r, a)
  | VFp b => let '(r, a) := mask_cert_finger_print b a in (VFp r, a)
  | VCname c => let '(r, a) := mask_cname c a in (VCname r, a)
  | VCandidate c => let '(r, a) := mask_candidate c a in (VCandidate r, a)
  | VRemote c => let '(r, a) := mask_remote_candidate c a in (VRemote r, a)
  | VFingerprint f => let '(r, a) := mask_fingerprint f a in (VFingerprint r, a)
  | VSsrc s => let '(r, a) := mask_ssrc s a in (VSsrc r, a)
  | VAttr x => let '(r, a) := mask_attr x a in (VAttr r, a)
  | VConnection c => let '(r, a) := mask_connection c a in (VConnection r, a)
  | VOrigin o => let '(r, a) := mask_origin o a in (VOrigin r, a)
  | VMedia m => let '(r, a) := mask_media m a in (VMedia r, a)
  | VSession s => let '(r, a) := mask_session s a in (VSession r, a)
  end.
(** The anonymizer after a history of calls. *)
Definition after (a : anon) (history : list aval) : anon :=
  fold_left (fun a v => snd (mask_val v a)) history a.

(** The sensitive fields of a value. *)
Inductive field :=
| FHost (h : str) | FIp (i : ip) | FPort (p : N) | FOriginUser (u : str) | FIcePwd (p : str)
| FIceUser (u : str) | FFp (b : list N) | FCname (c : str).

Definition address_fields (x : address) : list field :=
  match x with Fqdn h => [FHost h] | Ip i => [FIp i] end.
Definition typed_fields (x : typed_address) : list field :=
  match x with TFqdn _ h => [FHost h] | TIp i => [FIp i] end.
Definition option_fields {A} (f : A -> list field) (o : option A) : list field :=
  match o with Some x => f x | None => [] end.
Definition candidate_fields (c : candidate) : list field :=
  address_fields (cand_address c) ++ [FPort (cand_port c)] ++
  option_fields address_fields (raddr c) ++ option_fields (fun p => [FPort p]) (rport c).
(** The value of an ssrc line is sensitive when its attribute is "cname" in any
    letter case (ASCII, or U+212A which lower-cases to 'k' and cannot occur here). *)
Definition is_cname (a : str) : bool := str_eqb (to_lower a) (lit "cname").
Definition ssrc_fields (s : ssrc) : list field :=
  match ssrc_attribute s, ssrc_value s with
  | Some a, Some v => if is_cname a then [FCname v] else []
  | _, _ => []
  end.
Definition attr_fields (x : attr) : list field :=
  match x with
  | ACandidate c => candidate_fields c
  | AFingerprint f => [FFp (fp_bytes f)]
  | AIcePwd p => [FIcePwd p]
  | AIceUfrag u => [FIceUser u]
  | ARemoteCandidate c => address_fields (rc_address c) ++ [FPort (rc_port c)]
  | ASsrc s => ssrc_fields s
  | _ => []
  end.
Definition connection_fields (c : connection) : list field := typed_fields (conn_address c).
Definition origin_fields (o : origin) : list field :=
  FOriginUser (o_username o) :: typed_fields (o_unicast_addr o).
(** What the code treats as sensitive in each value it can mask. *)
Definition fields (v : aval) : list field :=
  match v with
  | VHost h => [FHost h]
  | VIp i => [FIp i]
  | VAddress x => address_fields x
  | VTyped x => typed_fields x
  | VPort p => [FPort p]
  | VOriginUser u => [FOriginUser u]
  | VIcePwd p => [FIcePwd p]
  | VIceUser u => [FIceUser u]
  | VFp b => [FFp b]
  | VCname c => [FCname c]
  | VCandidate c => candidate_fields c
  | VRemote c => address_fields (rc_address c) ++ [FPort (rc_port c)]
  | VFingerprint f => [FFp (fp_bytes f)]
  | VSsrc s => ssrc_fields s
  | VAttr x => attr_fields x
  | VConnection c => connection_fields c
  | VOrigin o => origin_fields o
  | VMedia m => flat_map attr_fields (m_attribute m)
  | VSession s =>
      origin_fields (s_origin s) ++ option_fields connection_fields (s_connection s) ++
      flat_map attr_fields (s_attribute s)
  end.

(** Distinct values of one kind among the sensitive fields of a history. *)
Definition field_eq_dec : forall x y : field, {x = y} + {x <> y}.
Proof. decide equality; try apply (list_eq_dec N.eq_dec); try apply N.eq_dec.
  decide equality; apply N.eq_dec. Defined.
Inductive kind := KHost | KIp4 | KIp6 | KPort | KOriginUser | KIcePwd | KIceUser | KFp | KCname.
Definition kind_of (f : field) : kind :=
  match f with
  | FHost _ => KHost | FIp (V4 _) => KIp4 | FIp (V6 _) => KIp6 | FPort _ => KPort
  | FOriginUser _ => KOriginUser | FIcePwd _ => KIcePwd | FIceUser _ => KIceUser
  | FFp _ => KFp | FCname _ => KCname
  end.
Definition kind_eq_dec : forall x y : kind, {x = y} + {x <> y}.
Proof. decide equality. Defined.
Definition distinct (k : kind) (l : list field) : N :=
  N.of_nat (List.length (nodup field_eq_dec
    (filter (fun f => if kind_eq_dec (kind_of f) k then true else false) l))).
(** How many values of a kind can be told apart by their masks: the range of the
    counter, or of its low byte for fingerprints. *)
Definition capacity (k : kind) : N :=
  match k with
  | KHost | KOriginUser | KIcePwd | KIceUser | KCname => 2 ^ 64
  | KPort | KIp4 => 2 ^ 32
  | KIp6 => 2 ^ 128
  | KFp => 2 ^ 8
  end.
(** A single sensitive field, masked on its own. *)
Definition val_of (f : field) : aval :=
  match f with
  | FHost h => VHost h | FIp i => VIp i | FPort p => VPort p | FOriginUser u => VOriginUser u
  | FIcePwd p => VIcePwd p | FIceUser u => VIceUser u | FFp b => VFp b | FCname c => VCname c
  end.

(** ** Numbering of masks (C29, C45) *)
(** The distinct values of kind [k] in order of first occurrence. *)
Definition first_seen (k : kind) (l : list field) : list field :=
  fold_left (fun acc f =>
    if kind_eq_dec (kind_of f) k then
      if in_dec field_eq_dec f acc then acc else acc ++ [f]
    else acc) l [].
(** [f] is the [n]-th (from 1) distinct value of its kind in [l]. *)
Definition nth_distinct (f : field) (n : nat) (l : list field) : Prop :=
  (1 <= n)%nat /\ nth_error (first_seen (kind_of f) l) (n - 1) = Some f.
(** Value of a string of decimal digits. *)
Definition decimal_value (s : str) : N := fold_left (fun acc c => 10 * acc + (c - 48)) s 0.
(** A fixed prefix followed by the number [n] in decimal, zero-padded to 8 digits. *)
Definition numbered (prefix : str) (n : N) (s : str) : Prop :=
  exists ds, s = prefix ++ ds /\ Forall (fun c => 48 <= c <= 57) ds /\ decimal_value ds = n /\
             (List.length ds = 8%nat \/
              ((8 < List.length ds)%nat /\ exists c t, ds = c :: t /\ c <> 48)).
(** [g] is the mask with number [n] of kind [k]. *)
Definition is_code (k : kind) (n : N) (g : field) : Prop :=
  match k, g with
  | KHost, FHost s => numbered (lit "fqdn-") (n mod 2 ^ 64) s
  | KOriginUser, FOriginUser s => numbered (lit "origin-user-") (n mod 2 ^ 64) s
  | KIcePwd, FIcePwd s => numbered (lit "ice-password-") (n mod 2 ^ 64) s
  | KIceUser, FIceUser s => numbered (lit "ice-user-") (n mod 2 ^ 64) s
  | KCname, FCname s => numbered (lit "cname-") (n mod 2 ^ 64) s
  | KIp4, FIp (V4 x) => x = n mod 2 ^ 32
  | KIp6, FIp (V6 x) => x = n mod 2 ^ 128
  | KPort, FPort p => p = n mod 2 ^ 32
  | KFp, FFp b => b = [0; 0; 0; 0; 0; 0; 0; n mod 2 ^ 8]
  | _, _ => False
  end.

(** ** Renamings of sensitive values (C30) *)
Record renaming := {
  rn_host : str -> str; rn_ip4 : N -> N; rn_ip6 : N -> N; rn_port : N -> N;
  rn_origin_user : str -> str; rn_ice_pwd : str -> str; rn_ice_user : str -> str;
  rn_fp : list N -> list N; rn_cname : str -> str
}.
Definition injective {A B} (f : A -> B) : Prop := forall x y, f x = f y -> x = y.
Record renaming_ok (r : renaming) : Prop := {
  ok_host : injective (rn_host r); ok_ip4 : injective (rn_ip4 r); ok_ip6 : injective (rn_ip6 r);
  ok_port : injective (rn_port r); ok_origin_user : injective (rn_origin_user r);
  ok_ice_pwd : injective (rn_ice_pwd r); ok_ice_user : injective (rn_ice_user r);
  ok_fp : injective (rn_fp r); ok_cname : injective (rn_cname r)
}.
Section Rename.
Variable r : renaming.
Definition ren_ip (i : ip) : ip := match i with V4 n => V4 (rn_ip4 r n) | V6 n => V6 (rn_ip6 r n) end.
Definition ren_address (x : address) : address :=
  match x with Fqdn h => Fqdn (rn_host r h) | Ip i => Ip (ren_ip i) end.
Definition ren_typed (x : typed_address) : typed_address :=
  match x with TFqdn t h => TFqdn t (rn_host r h) | TIp i => TIp (ren_ip i) end.
Definition ren_candidate (c : candidate) : candidate :=
  Build_candidate (foundation c) (component c) (transport c) (priority c)
    (ren_address (cand_address c)) (rn_port r (cand_port c)) (c_type c)
    (option_map ren_address (raddr c)) (option_map (rn_port r) (rport c)) (tcp_type c)
    (generation c) (ufrag c) (networkcost c) (unknown_extensions c).
Definition ren_remote (c : remote_candidate) : remote_candidate :=
  {| rc_component := rc_component c; rc_address := ren_address (rc_address c);
     rc_port := rn_port r (rc_port c) |}.
Definition ren_ssrc (s : ssrc) : ssrc :=
  {| ssrc_id := ssrc_id s; ssrc_attribute := ssrc_attribute s;
     ssrc_value := match ssrc_attribute s with
                   | Some a => if is_cname a then option_map (rn_cname r) (ssrc_value s)
                               else ssrc_value s
                   | None => ssrc_value s
                   end |}.
Definition ren_attr (x : attr) : attr :=
  match x with
  | ACandidate c => ACandidate (ren_candidate c)
  | AFingerprint f => AFingerprint {| fp_hash := fp_hash f; fp_bytes := rn_fp r (fp_bytes f) |}
  | AIcePwd p => AIcePwd (rn_ice_pwd r p)
  | AIceUfrag u => AIceUfrag (rn_ice_user r u)
  | ARemoteCandidate c => ARemoteCandidate (ren_remote c)
  | ASsrc s => ASsrc (ren_ssrc s)
  | x => x
  end.
Definition ren_connection (c : connection) : connection :=
  {| conn_address := ren_typed (conn_address c); conn_ttl := conn_ttl c;
     conn_amount := conn_amount c |}.
Definition ren_origin (o : origin) : origin :=
  {| o_username := rn_origin_user r (o_username o); o_session_id := o_session_id o;
     o_session_version := o_session_version o; o_unicast_addr := ren_typed (o_unicast_addr o) |}.
Definition ren_val (v : aval) : aval :=
  match v with
  | VHost h => VHost (rn_host r h)
  | VIp i => VIp (ren_ip i)
  | VAddress x => VAddress (ren_address x)
  | VTyped x => VTyped (ren_typed x)
  | VPort p => VPort (rn_port r p)
  | VOriginUser u => VOriginUser (rn_origin_user r u)
  | VIcePwd p => VIcePwd (rn_ice_pwd r p)
  | VIceUser u => VIceUser (rn_ice_user r u)
  | VFp b => VFp (rn_fp r b)
  | VCname c => VCname (rn_cname r c)
  | VCandidate c => VCandidate (ren_candidate c)
  | VRemote c => VRemote (ren_remote c)
  | VFingerprint f => VFingerprint {| fp_hash := fp_hash f; fp_bytes := rn_fp r (fp_bytes f) |}
  | VSsrc s => VSsrc (ren_ssrc s)
  | VAttr x => VAttr (ren_attr x)
  | VConnection c => VConnection (ren_connection c)
  | VOrigin o => VOrigin (ren_origin o)
  | VMedia m => VMedia {| m_media := m_media m; m_connection := m_connection m;
                          m_bandwidth := m_bandwidth m; m_attribute := map ren_attr (m_attribute m) |}
  | VSession s =>
      VSession {| s_version := s_version s; s_origin := ren_origin (s_origin s);
                  s_session := s_session s;
                  s_connection := option_map ren_connection (s_connection s);
                  s_bandwidth := s_bandwidth s; s_timing := s_timing s;
                  s_attribute := map ren_attr (s_attribute s); s_media := s_media s;
                  s_warnings := s_warnings s |}
  end.
End Rename.

(** ** Redaction (C31): blank out exactly the sensitive fields, keeping the kind
    and family of addresses. *)
Definition blank : renaming :=
  {| rn_host := fun _ => []; rn_ip4 := fun _ => 0; rn_ip6 := fun _ => 0; rn_port := fun _ => 0;
     rn_origin_user := fun _ => []; rn_ice_pwd := fun _ => []; rn_ice_user := fun _ => [];
     rn_fp := fun _ => []; rn_cname := fun _ => [] |}.

(** Values on which masked_clone keeps everything but the sensitive fields: ssrc
    lines without attribute carry no value (always so for parsed ones), and
    sessions are seen without their media sections and warnings. *)
Definition ssrc_regular (s : ssrc) : Prop := ssrc_attribute s = None -> ssrc_value s = None.
Definition attr_regular (x : attr) : Prop := match x with ASsrc s => ssrc_regular s | _ => True end.
Definition val_regular (v : aval) : Prop :=
  match v with
  | VSsrc s => ssrc_regular s
  | VAttr x => attr_regular x
  | VMedia m => Forall attr_regular (m_attribute m)
  | VSession s => Forall attr_regular (s_attribute s) /\ s_media s = [] /\ s_warnings s = []
  | _ => True
  end.

(** ** IP addresses occurring in a media section (C33) *)
Definition typed_ips (x : typed_address) : list ip := match x with TIp i => [i] | _ => [] end.
Definition address_ips (x : address) : list ip := match x with Ip i => [i] | _ => [] end.
Definition attr_ips (x : attr) : list ip :=
  match x with
  | ACandidate c => address_ips (cand_address c) ++
                    match raddr c with Some y => address_ips y | None => [] end
  | ARemoteCandidate c => address_ips (rc_address c)
  | ARtcp r => match rtcp_unicast_addr r with Some y => typed_ips y | None => [] end
  | _ => []
  end.
Definition media_ips (m : media) : list ip :=
  match m_connection m with Some c => typed_ips (conn_address c) | None => [] end ++
  flat_map attr_ips (m_attribute m).

(** * Anonymization (anonymizer.rs and the [masked_clone] impls) *)
From Coq Require Import List NArith Bool Ascii String.
From Verif Require Import Str Num Net Types Ext Show Address AttrParse Media Session.
Import ListNotations.
Open Scope N_scope.
Open Scope list_scope.

(** A [HashMap] is an association list; entries are only ever inserted for keys
    that are absent. *)
Fixpoint lookup {K V} (eqb : K -> K -> bool) (k : K) (m : list (K * V)) : option V :=
  match m with
  | [] => None
  | (k', v) :: m' => if eqb k k' then Some v else lookup eqb k m'
  end.

(** [list N] equality for [HashMap<Vec<u8>, _>]. *)
Definition bytes_eqb (a b : list N) : bool := str_eqb a b.

(** [Wrapping(x) + Wrapping(1)] for a type with [2^bits] values. *)
Definition wrap_inc (modulus x : N) : N := (x + 1) mod modulus.
Definition two8 : N := 256.
Definition two32 : N := 4294967296.
Definition two64 : N := 18446744073709551616.
Definition two128 : N := 340282366920938463463374607431768211456.

(** [u64::to_byte_vec] (anonymizer.rs:19-30): pushes the low byte eight times,
    shifting LEFT in between ([u64 <<= 8] drops the high bits), then reverses. *)
Fixpoint byte_vec_loop (n : nat) (val : N) : list N :=
  match n with
  | O => []
  | S n' => (val mod two8) :: byte_vec_loop n' ((val * two8) mod two64)
  end.
Definition to_byte_vec (val : N) : list N := rev (byte_vec_loop 8 val).

(** [AnonymizationStrMap] (anonymizer.rs:162-194). *)
Record str_map := { sm_map : list (str * str); sm_counter : N; sm_prefix : str; sm_padding : nat }.
Definition str_map_new (prefix : str) (padding : nat) : str_map :=
  {| sm_map := []; sm_counter := 0; sm_prefix := prefix; sm_padding := padding |}.
(** [mask] (anonymizer.rs:179-193). *)
Definition str_mask (m : str_map) (value : str) : str * str_map :=
  match lookup str_eqb value (sm_map m) with
  | Some stored => (stored, m)
  | None =>
      let c := wrap_inc two64 (sm_counter m) in
      let store := sm_prefix m ++ pad0 (sm_padding m) (show_N c) in
      (store, {| sm_map := (value, store) :: sm_map m; sm_counter := c;
                 sm_prefix := sm_prefix m; sm_padding := sm_padding m |})
  end.

(** [StatefulSdpAnonymizer] (anonymizer.rs:40-53). *)
Record anon := Build_anon {
  an_ips : list (ip * ip);
  an_v4 : N;
  an_v6 : N;
  an_hosts : str_map;
  an_ports : list (N * N);
  an_port_inc : N;
  an_origin_users : str_map;
  an_ice_passwords : str_map;
  an_ice_users : str_map;
  an_fps : list (list N * list N);
  an_fp_inc : N;
  an_cnames : str_map
}.

(** [new] (anonymizer.rs:62-77). *)
Definition anon_new : anon :=
  Build_anon [] 0 0 (str_map_new (lit "fqdn-") 8) [] 0
    (str_map_new (lit "origin-user-") 8) (str_map_new (lit "ice-password-") 8)
    (str_map_new (lit "ice-user-") 8) [] 0 (str_map_new (lit "cname-") 8).

Definition anon_set_hosts (h : str_map) (a : anon) : anon :=
  Build_anon (an_ips a) (an_v4 a) (an_v6 a) h (an_ports a) (an_port_inc a)
    (an_origin_users a) (an_ice_passwords a) (an_ice_users a) (an_fps a) (an_fp_inc a) (an_cnames a).
Definition anon_set_ips (i : list (ip * ip)) (v4 v6 : N) (a : anon) : anon :=
  Build_anon i v4 v6 (an_hosts a) (an_ports a) (an_port_inc a)
    (an_origin_users a) (an_ice_passwords a) (an_ice_users a) (an_fps a) (an_fp_inc a) (an_cnames a).
Definition anon_set_ports (p : list (N * N)) (inc : N) (a : anon) : anon :=
  Build_anon (an_ips a) (an_v4 a) (an_v6 a) (an_hosts a) p inc
    (an_origin_users a) (an_ice_passwords a) (an_ice_users a) (an_fps a) (an_fp_inc a) (an_cnames a).
Definition anon_set_origin_users (m : str_map) (a : anon) : anon :=
  Build_anon (an_ips a) (an_v4 a) (an_v6 a) (an_hosts a) (an_ports a) (an_port_inc a)
    m (an_ice_passwords a) (an_ice_users a) (an_fps a) (an_fp_inc a) (an_cnames a).
Definition anon_set_ice_passwords (m : str_map) (a : anon) : anon :=
  Build_anon (an_ips a) (an_v4 a) (an_v6 a) (an_hosts a) (an_ports a) (an_port_inc a)
    (an_origin_users a) m (an_ice_users a) (an_fps a) (an_fp_inc a) (an_cnames a).
Definition anon_set_ice_users (m : str_map) (a : anon) : anon :=
  Build_anon (an_ips a) (an_v4 a) (an_v6 a) (an_hosts a) (an_ports a) (an_port_inc a)
    (an_origin_users a) (an_ice_passwords a) m (an_fps a) (an_fp_inc a) (an_cnames a).
Definition anon_set_fps (f : list (list N * list N)) (inc : N) (a : anon) : anon :=
  Build_anon (an_ips a) (an_v4 a) (an_v6 a) (an_hosts a) (an_ports a) (an_port_inc a)
    (an_origin_users a) (an_ice_passwords a) (an_ice_users a) f inc (an_cnames a).
Definition anon_set_cnames (m : str_map) (a : anon) : anon :=
  Build_anon (an_ips a) (an_v4 a) (an_v6 a) (an_hosts a) (an_ports a) (an_port_inc a)
    (an_origin_users a) (an_ice_passwords a) (an_ice_users a) (an_fps a) (an_fp_inc a) m.

(** anonymizer.rs:79-81 *)
Definition mask_host (h : str) (a : anon) : str * anon :=
  let '(r, m) := str_mask (an_hosts a) h in (r, anon_set_hosts m a).

(** anonymizer.rs:83-99 *)
Definition mask_ip (addr : ip) (a : anon) : ip * anon :=
  match lookup ip_eqb addr (an_ips a) with
  | Some x => (x, a)
  | None =>
      match addr with
      | V4 _ =>
          let n := wrap_inc two32 (an_v4 a) in
          (V4 n, anon_set_ips ((addr, V4 n) :: an_ips a) n (an_v6 a) a)
      | V6 _ =>
          let n := wrap_inc two128 (an_v6 a) in
          (V6 n, anon_set_ips ((addr, V6 n) :: an_ips a) (an_v4 a) n a)
      end
  end.

(** anonymizer.rs:101-106 *)
Definition mask_address (x : address) (a : anon) : address * anon :=
  match x with
  | Fqdn h => let '(r, a) := mask_host h a in (Fqdn r, a)
  | Ip i => let '(r, a) := mask_ip i a in (Ip r, a)
  end.

(** anonymizer.rs:108-122 *)
Definition mask_typed_address (x : typed_address) (a : anon) : typed_address * anon :=
  match x with
  | TFqdn t d => let '(r, a) := mask_host d a in (TFqdn t r, a)
  | TIp i => let '(r, a) := mask_ip i a in (TIp r, a)
  end.

(** anonymizer.rs:124-131 *)
Definition mask_port (p : N) (a : anon) : N * anon :=
  match lookup N.eqb p (an_ports a) with
  | Some x => (x, a)
  | None =>
      let n := wrap_inc two32 (an_port_inc a) in
      (n, anon_set_ports ((p, n) :: an_ports a) n a)
  end.

(** anonymizer.rs:133-143, :157-159 *)
Definition mask_origin_user (u : str) (a : anon) : str * anon :=
  let '(r, m) := str_mask (an_origin_users a) u in (r, anon_set_origin_users m a).
Definition mask_ice_password (u : str) (a : anon) : str * anon :=
  let '(r, m) := str_mask (an_ice_passwords a) u in (r, anon_set_ice_passwords m a).
Definition mask_ice_user (u : str) (a : anon) : str * anon :=
  let '(r, m) := str_mask (an_ice_users a) u in (r, anon_set_ice_users m a).
Definition mask_cname (u : str) (a : anon) : str * anon :=
  let '(r, m) := str_mask (an_cnames a) u in (r, anon_set_cnames m a).

(** anonymizer.rs:145-155 *)
Definition mask_cert_finger_print (fp : list N) (a : anon) : list N * anon :=
  match lookup bytes_eqb fp (an_fps a) with
  | Some x => (x, a)
  | None =>
      let n := wrap_inc two64 (an_fp_inc a) in
      (to_byte_vec n, anon_set_fps ((fp, to_byte_vec n) :: an_fps a) n a)
  end.

(** ** [masked_clone] *)
(** attribute_type.rs:291-303 *)
Definition mask_candidate (c : candidate) (a : anon) : candidate * anon :=
  let '(addr, a) := mask_address (cand_address c) a in
  let '(port, a) := mask_port (cand_port c) a in
  let '(ra, a) := match raddr c with
                  | Some x => let '(r, a) := mask_address x a in (Some r, a)
                  | None => (None, a)
                  end in
  let '(rp, a) := match rport c with
                  | Some x => let '(r, a) := mask_port x a in (Some r, a)
                  | None => (None, a)
                  end in
  (set_rport rp (set_raddr ra (set_cand_port port (set_cand_address addr c))), a).
(** attribute_type.rs:344-352; struct fields are evaluated in the order written
    (address, then port). *)
Definition mask_remote_candidate (c : remote_candidate) (a : anon) : remote_candidate * anon :=
  let '(addr, a) := mask_address (rc_address c) a in
  let '(port, a) := mask_port (rc_port c) a in
  ({| rc_component := rc_component c; rc_address := addr; rc_port := port |}, a).
(** attribute_type.rs:847-854 *)
Definition mask_fingerprint (f : fingerprint) (a : anon) : fingerprint * anon :=
  let '(b, a) := mask_cert_finger_print (fp_bytes f) a in
  ({| fp_hash := fp_hash f; fp_bytes := b |}, a).
(** attribute_type.rs:1251-1265 *)
Definition mask_ssrc (s : ssrc) (a : anon) : ssrc * anon :=
  match ssrc_attribute s with
  | Some at_ =>
      match ssrc_value s with
      | Some v =>
          if str_eqb (to_lower at_) (lit "cname") then
            let '(r, a) := mask_cname v a in
            ({| ssrc_id := ssrc_id s; ssrc_attribute := Some at_; ssrc_value := Some r |}, a)
          else (s, a)
      | None => (s, a)
      end
  | None => ({| ssrc_id := ssrc_id s; ssrc_attribute := None; ssrc_value := None |}, a)
  end.
(** attribute_type.rs:1576-1588 *)
Definition mask_attr (x : attr) (a : anon) : attr * anon :=
  match x with
  | ACandidate c => let '(r, a) := mask_candidate c a in (ACandidate r, a)
  | AFingerprint f => let '(r, a) := mask_fingerprint f a in (AFingerprint r, a)
  | AIcePwd p => let '(r, a) := mask_ice_password p a in (AIcePwd r, a)
  | AIceUfrag u => let '(r, a) := mask_ice_user u a in (AIceUfrag r, a)
  | ARemoteCandidate c => let '(r, a) := mask_remote_candidate c a in (ARemoteCandidate r, a)
  | ASsrc s => let '(r, a) := mask_ssrc s a in (ASsrc r, a)
  | _ => (x, a)
  end.
Fixpoint mask_attrs (l : list attr) (a : anon) : list attr * anon :=
  match l with
  | [] => ([], a)
  | x :: l' =>
      let '(y, a) := mask_attr x a in
      let '(ys, a) := mask_attrs l' a in
      (y :: ys, a)
  end.

(** lib.rs:87-93 *)
Definition mask_connection (c : connection) (a : anon) : connection * anon :=
  let '(r, a) := mask_typed_address (conn_address c) a in
  ({| conn_address := r; conn_ttl := conn_ttl c; conn_amount := conn_amount c |}, a).
(** lib.rs:123-130 *)
Definition mask_origin (o : origin) (a : anon) : origin * anon :=
  let '(u, a) := mask_origin_user (o_username o) a in
  let '(r, a) := mask_typed_address (o_unicast_addr o) a in
  ({| o_username := u; o_session_id := o_session_id o; o_session_version := o_session_version o;
      o_unicast_addr := r |}, a).
(** media_type.rs:298-311 *)
Definition mask_media (m : media) (a : anon) : media * anon :=
  let '(attrs, a) := mask_attrs (m_attribute m) a in
  ({| m_media := m_media m; m_connection := m_connection m; m_bandwidth := m_bandwidth m;
      m_attribute := attrs |}, a).
(** lib.rs:376-396; the origin is masked twice, the media are not copied. *)
Definition mask_session (s : session) (a : anon) : session * anon :=
  let '(_, a) := mask_origin (s_origin s) a in
  let '(o, a) := mask_origin (s_origin s) a in
  let '(c, a) := match s_connection s with
                 | Some c => let '(r, a) := mask_connection c a in (Some r, a)
                 | None => (None, a)
                 end in
  let '(attrs, a) := mask_attrs (s_attribute s) a in
  ({| s_version := s_version s; s_origin := o; s_session := s_session s; s_connection := c;
      s_bandwidth := s_bandwidth s; s_timing := s_timing s; s_attribute := attrs;
      s_media := []; s_warnings := [] |}, a).

(** * Theorems about the anonymizer: C26-C33, C45, C46

    The vocabulary ([aval], [mask_val], [after], [field], [fields], [kind], ...)
    is in SpecAnon.v.  A history is a list of calls on one anonymizer. *)
From Coq Require Import List NArith Bool Ascii String.
From Verif Require Import Str Num Net Types Anon SpecAnon PAnon PAnon2 PAnon3 PAnon4.
Import ListNotations.
Open Scope N_scope.
Open Scope list_scope.

(** ** C26: masking the same value again, after any further calls, gives the same
    result.  [a] is any anonymizer state. *)
Theorem C26_masking_is_stable : forall (a : anon) (v : aval) (later : list aval),
  fst (mask_val v (after (snd (mask_val v a)) later)) = fst (mask_val v a).
Proof. exact masking_stable. Qed.
Print Assumptions C26_masking_is_stable.

Definition ex_candidate : candidate :=
  Build_candidate (lit "1") 1 Udp 2113601791 (Ip (V4 167772161)) 50000 Srflx
    (Some (Ip (V4 3232235777))) (Some 40000) None None None None [].
Definition ex_history : list aval :=
  [VAttr (AIcePwd (lit "secret")); VCandidate ex_candidate; VHost (lit "example.com");
   VIp (V6 1); VIp (V4 167772161); VAttr (AFingerprint {| fp_hash := Sha1; fp_bytes := [1; 2; 3] |})].
Example C26_example :
  let '(r1, a1) := mask_val (VCandidate ex_candidate) (after anon_new [VIp (V4 9)]) in
  let '(r2, _) := mask_val (VCandidate ex_candidate) (after a1 ex_history) in
  r1 = r2 /\ r1 <> VCandidate ex_candidate.
Proof. vm_compute. split; [reflexivity|discriminate]. Qed.

(** ** C27: two different values of the same kind, masked at any two points of a
    history, get different masks, as long as the number of distinct values of that
    kind does not exceed the capacity. *)
Theorem C27_masking_is_injective : forall (h1 : list aval) (f1 : field) (h2 : list aval) (f2 : field),
  kind_of f1 = kind_of f2 -> f1 <> f2 ->
  distinct (kind_of f1) (flat_map fields (h1 ++ [val_of f1] ++ h2 ++ [val_of f2])) <=
    capacity (kind_of f1) ->
  fst (mask_val (val_of f1) (after anon_new h1)) <>
  fst (mask_val (val_of f2) (after anon_new (h1 ++ [val_of f1] ++ h2))).
Proof. exact masks_distinct. Qed.
Print Assumptions C27_masking_is_injective.

Example C27_example :
  kind_of (FIp (V4 167772161)) = kind_of (FIp (V4 3232235777)) /\
  FIp (V4 167772161) <> FIp (V4 3232235777) /\
  distinct KIp4 (flat_map fields (ex_history ++ [VIp (V4 167772161)] ++ ex_history ++ [VIp (V4 3232235777)])) = 2 /\
  2 <= capacity KIp4.
Proof. repeat split; [discriminate|vm_compute; discriminate]. Qed.

(** ** C28: fingerprint masks are not always distinct. *)
Definition sha1_bytes (n : nat) : list N := repeat 0 18 ++ [N.of_nat n / 256; N.of_nat n mod 256].
Definition fp_history (n : nat) : list aval := map (fun i => VFp (sha1_bytes i)) (seq 0 n).
Theorem C28_fingerprint_masks_distinct_refuted :
  exists (h : list aval) (b1 b2 : list N),
    b1 <> b2 /\ List.length b1 = 20%nat /\ List.length b2 = 20%nat /\ List.length h = 256%nat /\
    fst (mask_val (VFp b1) (after anon_new h)) = fst (mask_val (VFp b2) (after anon_new h)).
Proof.
  exists (fp_history 256), (sha1_bytes 0), (sha1_bytes 256).
  split; [discriminate|]. split; [reflexivity|]. split; [reflexivity|]. split; [reflexivity|].
  vm_compute. reflexivity.
Qed.
Print Assumptions C28_fingerprint_masks_distinct_refuted.
(** Up to 256 different fingerprints the masks are distinct: C27 at kind [KFp]. *)
Example C28_capacity : capacity KFp = 256.
Proof. reflexivity. Qed.

(** ** C29: the mask of a value is of the value's kind (and IP family) and of the
    documented shape. *)
Theorem C29_masking_keeps_kind : forall (h : list aval) (f : field),
  exists g, fst (mask_val (val_of f) (after anon_new h)) = val_of g /\
    kind_of g = kind_of f /\ exists n, is_code (kind_of f) n g.
Proof. exact mask_keeps_kind. Qed.
Print Assumptions C29_masking_keeps_kind.
Example C29_example :
  fst (mask_val (VHost (lit "example.org")) (after anon_new ex_history)) = VHost (lit "fqdn-00000002").
Proof. vm_compute. reflexivity. Qed.

(** ** C30: the masked result depends on the sensitive values only through which of
    them are equal: applying an injective renaming to all sensitive values of the
    whole history and of the value masked changes nothing in the result. *)
Theorem C30_masking_hides_values : forall (r : renaming), renaming_ok r ->
  forall (h : list aval) (v : aval),
  fst (mask_val (ren_val r v) (after anon_new (map (ren_val r) h))) =
  fst (mask_val v (after anon_new h)).
Proof. exact masking_renamed. Qed.
Print Assumptions C30_masking_hides_values.
Definition ex_renaming : renaming :=
  {| rn_host := cons 65; rn_ip4 := N.succ; rn_ip6 := N.succ; rn_port := N.succ;
     rn_origin_user := cons 66; rn_ice_pwd := cons 67; rn_ice_user := cons 68;
     rn_fp := cons 69; rn_cname := cons 70 |}.
Example C30_example : renaming_ok ex_renaming.
Proof. constructor; intros x y H; simpl in H; try (apply N.succ_inj; exact H); inversion H; auto. Qed.

(** ** C31: masking changes nothing but the sensitive fields.  [blank] overwrites
    exactly those.  [val_regular] excludes ssrc lines with a value but no attribute
    (the parser makes none) and looks at sessions without media (see C32). *)
Theorem C31_masking_keeps_the_rest : forall (h : list aval) (v : aval), val_regular v ->
  ren_val blank (fst (mask_val v (after anon_new h))) = ren_val blank v.
Proof. exact masking_keeps. Qed.
Print Assumptions C31_masking_keeps_the_rest.
Example C31_example : val_regular (VCandidate ex_candidate) /\
  ren_val blank (VCandidate ex_candidate) <> ren_val blank
    (VCandidate (Build_candidate (lit "2") 1 Udp 2113601791 (Ip (V4 167772161)) 50000 Srflx
      (Some (Ip (V4 3232235777))) (Some 40000) None None None None [])).
Proof. split; [exact I|discriminate]. Qed.

(** ** C32: masking a session loses its media sections. *)
Definition ex_media : media :=
  {| m_media := {| ml_media := Audio; ml_port := 9; ml_port_count := 0; ml_proto := UdpTlsRtpSavpf;
                   ml_formats := Integers [0] |};
     m_connection := Some {| conn_address := TIp (V4 3221225985); conn_ttl := None; conn_amount := None |};
     m_bandwidth := []; m_attribute := [ASendrecv] |}.
Definition ex_session : session :=
  {| s_version := 0;
     s_origin := {| o_username := lit "-"; o_session_id := 1; o_session_version := 2;
                    o_unicast_addr := TIp (V4 2130706433) |};
     s_session := Some (lit "-"); s_connection := None; s_bandwidth := [];
     s_timing := Some {| t_start := 0; t_stop := 0 |}; s_attribute := []; s_media := [ex_media];
     s_warnings := [] |}.
Theorem C32_session_clone_keeps_media_refuted :
  exists (s s' : session) (a : anon),
    mask_val (VSession s) anon_new = (VSession s', a) /\
    List.length (s_media s) = 1%nat /\ s_media s' = [].
Proof. exists ex_session. do 2 eexists. vm_compute. repeat split. Qed.
Print Assumptions C32_session_clone_keeps_media_refuted.

(** ** C33: masking a media section does not hide its addresses: an IP address
    survives although masking that address gives another one. *)
Theorem C33_media_clone_hides_addresses_refuted :
  exists (m m' : media) (a : anon) (i : ip),
    mask_val (VMedia m) (after anon_new [VIp (V4 1); VIp (V4 2)]) = (VMedia m', a) /\
    In i (media_ips m) /\ In i (media_ips m') /\
    fst (mask_val (VIp i) a) <> VIp i.
Proof.
  exists ex_media. do 2 eexists. exists (V4 3221225985).
  vm_compute. repeat split; auto. discriminate.
Qed.
Print Assumptions C33_media_clone_hides_addresses_refuted.

(** ** C45: exact numbering.  The mask of the n-th distinct value of its kind (in
    order of first masking, whether masked on its own or inside another value) is
    the mask with number n. *)
Theorem C45_masks_are_numbered : forall (h : list aval) (f : field) (n : nat),
  nth_distinct f n (flat_map fields h ++ [f]) ->
  exists g, fst (mask_val (val_of f) (after anon_new h)) = val_of g /\
            is_code (kind_of f) (N.of_nat n) g.
Proof. exact mask_exact. Qed.
Print Assumptions C45_masks_are_numbered.
(** Every masked value has such a number. *)
Theorem C45_every_value_has_a_number : forall (h : list aval) (f : field),
  exists n, nth_distinct f n (flat_map fields h ++ [f]).
Proof. intros h f. apply nth_distinct_ex. apply in_or_app. right. left. reflexivity. Qed.
Print Assumptions C45_every_value_has_a_number.
Example C45_example : nth_distinct (FPort 40000) 2 (flat_map fields ex_history ++ [FPort 40000]).
Proof. vm_compute. split; [repeat constructor|reflexivity]. Qed.

(** ** C46: completeness.  Field by field and in order, the sensitive fields of the
    clone are the masks of the sensitive fields of the original (as any later call
    would mask them). *)
Theorem C46_every_field_is_masked : forall (a : anon) (v : aval) (later : list aval),
  Forall2 (fun f g => fst (mask_val (val_of f) (after (snd (mask_val v a)) later)) = val_of g)
          (fields v) (fields (fst (mask_val v a))).
Proof. exact masking_complete. Qed.
Print Assumptions C46_every_field_is_masked.
Example C46_example : List.length (fields (VCandidate ex_candidate)) = 4%nat.
Proof. reflexivity. Qed.

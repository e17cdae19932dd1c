(** * Printing and parsing again: many rounds (C55) *)
From Coq Require Import List NArith ZArith Bool Ascii String Lia ZifyBool ZifyNat ZifyN.
From Verif Require Import Str Num Net Types Ext Show Session SpecApi SpecDoc SpecVal SpecItems SpecPrint SpecUnsup SpecSettle.
From Verif Require Import StrLemmas NumLemmas NetLemmas PPanic PVal PVal2 PVal10 PVal11 PDoc PDoc2 PVal5 PVal8 PVal9 PPrint PPrint2 PPrint3 PPrint4 PPrint5 PPrint6 PPrint7 PPrint8 PPrint9 PPrint10 PPrint11 PUnsup PSettle PSettle2 PSettle3.
Import ListNotations.
Open Scope N_scope.
Open Scope list_scope.
Section WithExt.
Context {E : Ext} (X : ext_ok E).

Lemma line_settles : forall line n l n' l', parse_sdp_line line n = Ok l -> ~ item_nan (l_type l) ->
  (Z.of_nat (List.length (printed_line (l_type l))) < 2147483648)%Z ->
  parse_sdp_line (printed_line (l_type l)) n' = Ok l' ->
  shrinks (printed_line (l_type l)) (printed_line (l_type l')) /\
  (~ item_unsettled (l_type l) -> exists l2, parse_sdp_line (printed_line (l_type l')) n' = Ok l2 /\ l_type l2 = l_type l').
Proof.
  intros line n l n' l' P N C P'. pose proof (line_means_wf X _ _ _ P) as W. pose proof (line_fwd _ _ _ P') as (_ & _ & M).
  assert (Ct : forall ty, countable ty (List.length (printed_line (l_type l)))) by (intros [[]| | | | | | |]; try exact I; exact C).
  destruct (item_settles X _ _ W N (Ct _) (Ct _) M) as (_ & _ & Sh & U). split; [exact Sh|]. intro U'. specialize (U U').
  destruct (line_round_trip X _ _ _ n' P' U) as (l2 & P2 & Q & _).
  - apply shr_le in Sh. destruct (l_type l') as [[]| | | | | | |]; try exact I. cbn [countable] in *. lia.
  - exists l2. split; assumption.
Qed.
Definition good (s : session) : Prop :=
  session_wf s /\ structural s /\ ~ Exists item_nan (session_items s) /\ (Z.of_nat (List.length (show_session s)) < 2147483648)%Z.
Lemma good_parsed : forall sdp b s, parse_sdp sdp b = Ok s -> ~ Exists item_nan (session_items s) ->
  (Z.of_nat (List.length (show_session s)) < 2147483648)%Z -> good s.
Proof. intros sdp b s P N C. destruct (parsed_session_wf X _ _ _ P) as [W St]. repeat (split; [assumption|]). exact C. Qed.
Lemma good_round : forall s b s', good s -> parse_sdp (show_session s) b = Ok s' -> good s' /\ shrinks (show_session s) (show_session s').
Proof.
  intros s b s' (W & St & N & C) P. destruct (session_settles X s b s' W N C P) as (Sh & N' & _). split; [|exact Sh].
  apply (good_parsed _ _ _ P N'). apply shr_le in Sh. lia.
Qed.
Lemma second_round : forall s b s' b', good s -> ~ has_unsettled s -> parse_sdp (show_session s) b = Ok s' ->
  51 <= byte_len (show_session s') -> parse_sdp (show_session s') b' = Ok (with_warnings s' []).
Proof.
  intros s b s' b' G U P B. destruct (good_round _ _ _ G P) as [(W' & St' & _ & C') _]. destruct G as (W & St & N & C).
  destruct (session_settles X s b s' W N C P) as (_ & _ & L). apply (printed_session_parses X); auto.
Qed.
Lemma rounds_good : forall k s s', rounds k s s' -> good s -> good s'.
Proof. intros k s s' R G. induction R as [s|k s s1 s2 R IH P]; [exact G|]. exact (proj1 (good_round _ _ _ (IH G) P)). Qed.
(** Once a round changes nothing, no later one does. *)
Definition settled (s : session) : Prop := forall s', parse_sdp (show_session s) false = Ok s' -> show_session s' = show_session s.
Lemma rounds_measure : forall k s s', rounds k s s' -> good s ->
  settled s' \/ (List.length (show_session s') + k <= List.length (show_session s))%nat.
Proof.
  intros k s s' R G. induction R as [s|k s s1 s2 R IH P]; [right; lia|].
  destruct (good_round _ _ _ (rounds_good _ _ _ R G) P) as [_ Sh].
  assert (Same : show_session s2 = show_session s1 -> settled s2).
  { intros Q s3 P3. rewrite Q, P in P3. injection P3 as <-. reflexivity. }
  destruct (IH G) as [S|L]; [left; apply Same, S, P|]. destruct Sh as [Q|Q]; [left; apply Same, Q | right; lia].
Qed.
Lemma rounds_settle : forall s s1 s2, good s -> rounds (List.length (show_session s)) s s1 ->
  parse_sdp (show_session s1) false = Ok s2 -> show_session s2 = show_session s1 /\ parse_sdp (show_session s2) false = Ok s2.
Proof.
  intros s s1 s2 G R P. assert (Q : show_session s2 = show_session s1); [|split; [exact Q | rewrite Q; exact P]].
  destruct (rounds_measure _ _ _ R G) as [S|L]; [exact (S _ P)|]. exfalso. apply document in P. destruct P as (B & _).
  destruct (show_session s1); [cbn in B; lia | cbn [List.length] in L; lia].
Qed.

(** ** No fixed number of rounds is enough *)
Fixpoint stack (k : nat) : str := match k with O => [53] | S k => lit "rid=" ++ stack k end.
Definition stacked (k : nat) : session :=
  {| s_version := 0;
     s_origin := {| o_username := [45]; o_session_id := 0; o_session_version := 0; o_unicast_addr := TIp (V6 1) |};
     s_session := Some [45]; s_connection := None; s_bandwidth := []; s_timing := Some {| t_start := 0; t_stop := 0 |};
     s_attribute := [];
     s_media := [{|
       m_media := {| ml_media := Video; ml_port := 9; ml_port_count := 0; ml_proto := RtpAvp; ml_formats := Integers [120] |};
       m_connection := Some {| conn_address := TIp (V6 1); conn_ttl := None; conn_amount := None |};
       m_bandwidth := [];
       m_attribute :=
         [ARid {| rid_id := [49]; rid_direction := Send; rid_formats := [];
                  rid_params_of := {| max_width := 0; max_height := 0; max_fps := 0; rid_max_fs := 0; rid_max_br := 0; max_pps := 0; rid_unknown := [] |};
                  rid_depends := [] |};
          ASimulcast {| sim_send := [[{| sid_id := [49]; sid_paused := false |}]]; sim_receive := [] |};
          ASimulcast {| sim_send := [[{| sid_id := stack k; sid_paused := false |}]]; sim_receive := [] |}] |}];
     s_warnings := [] |}.
Definition last_simulcast (k : nat) : attr :=
  ASimulcast {| sim_send := [[{| sid_id := stack k; sid_paused := false |}]]; sim_receive := [] |}.
Definition fixed_items : list sdp_type := Eval cbn in removelast (printed_items (stacked 0)).
Lemma stacked_items : forall k, printed_items (stacked k) = fixed_items ++ [TyAttribute (last_simulcast k)].
Proof. reflexivity. Qed.
Lemma last_text : forall k, show_attr (last_simulcast k) = lit "simulcast:send " ++ stack k.
Proof.
  intro k. unfold last_simulcast. cbn [show_attr].
  rewrite (proj1 (show_one_side _ [[{| sid_id := stack k; sid_paused := false |}]])) by (split; [reflexivity|]; split; [reflexivity | discriminate]).
  assert (Q : printed_versions [[{| sid_id := stack k; sid_paused := false |}]] = stack k).
  { destruct (stack k) eqn:K; [destruct k; discriminate|]. reflexivity. }
  rewrite Q. reflexivity.
Qed.
Lemma stacked_lines : forall k, session_lines (stacked k) = map printed_line fixed_items ++ [lit "a=simulcast:send " ++ stack k].
Proof.
  intro k. rewrite session_lines_map.
  - rewrite stacked_items, map_app. f_equal. cbn [map]. unfold printed_line. cbn [line_letter item_text]. rewrite last_text. reflexivity.
  - intros a Ha. apply attribute_item in Ha. destruct Ha as [<-|[<-|[<-|[]]]]; [discriminate | discriminate|].
    change (show_attr (last_simulcast k) <> []). rewrite last_text. discriminate.
Qed.
Lemma stack_chars : forall k, Forall (fun c => In c (lit "rid=5")) (stack k).
Proof. induction k as [|k IH]; cbn [stack]; repeat (constructor; [cbn; tauto|]); [constructor | exact IH]. Qed.
Lemma stack_no : forall c k, ~ In c (lit "rid=5") -> ~ In c (stack k).
Proof. intros c k N I. apply N. exact (Forall_in _ _ _ (stack_chars k) I). Qed.
Lemma stack_word : forall k, word (stack k).
Proof.
  intro k. split; [destruct k; discriminate|]. eapply Forall_impl; [|apply stack_chars]. intros c I. cbn in I.
  repeat destruct I as [<-|I]; [reflexivity.. | destruct I].
Qed.
Lemma last_means : forall k, line_means (lit "a=simulcast:send " ++ stack (S k)) (TyAttribute (last_simulcast k)).
Proof.
  intro k. apply means_plain; [reflexivity | discriminate|]. split; [reflexivity|]. cbn [type_value].
  exists (lit "simulcast:send " ++ stack (S k)). split.
  { apply core_self; [eexists _, _; split; reflexivity|]. destruct (word_ends _ (stack_word (S k))) as (c & x & Q & B).
    rewrite Q. exists c, (lit "simulcast:send " ++ x). split; [rewrite app_assoc; reflexivity | exact B]. }
  right. exists (lit "simulcast"), (lit "send " ++ stack (S k)). split; [split; [reflexivity | apply not_in_b; reflexivity]|]. split; [apply means_iff; reflexivity|].
  unfold last_simulcast. cbn [attr_value]. exists (lit "send"), (stack (S k)), []. split.
  { apply (words_more [] (lit "send") 32 (stack (S k)) [stack (S k)]); [constructor | split; [discriminate | repeat constructor] | reflexivity|].
    apply (words_last []); [constructor | apply stack_word]. }
  exists Send, [[{| sid_id := stack k; sid_paused := false |}]], []. split; [reflexivity|]. split; [|split; [reflexivity | split; reflexivity]].
  exists (stack k), [stack k]. split; [left; split; [reflexivity | apply not_in_b; reflexivity]|].
  split; [constructor; apply stack_no; vm_compute; intuition discriminate|].
  constructor; [|constructor]. exists [stack k]. split; [constructor; apply stack_no; vm_compute; intuition discriminate|].
  constructor; [|constructor]. unfold simulcast_id_value. cbn [sid_paused sid_id]. split; [reflexivity|]. intros x Q.
  assert (I : In 126 (stack k)) by (rewrite Q; left; reflexivity). revert I. apply stack_no. vm_compute. intuition discriminate.
Qed.
Definition fixed_lines : list str :=
  [lit "v=0"; lit "o=- 0 0 IN IP6 ::1"; lit "s=-"; lit "t=0 0"; lit "m=video 9 RTP/AVP 120"; lit "c=IN IP6 ::1"; lit "a=rid:1 send"; lit "a=simulcast:send 1"].
Lemma means_of : forall x ty, parse_sdp_line x 0 = Ok {| l_number := 0; l_type := ty; l_text := x |} -> line_means x ty.
Proof. intros x ty P. apply line_fwd in P. apply P. Qed.
Lemma fixed_means : Forall2 (fun x ty => line_means x ty /\ forall n, countable ty n) (map printed_line fixed_items) fixed_items.
Proof.
  assert (F : map printed_line fixed_items = fixed_lines) by (vm_compute; reflexivity). rewrite F. unfold fixed_lines, fixed_items.
  repeat (constructor; [split; [|intro n; exact I]; apply means_of; vm_compute; reflexivity|]).
  constructor.
Qed.
Lemma means_read : forall ls ts, Forall plain ls -> Forall2 (fun x ty => line_means x ty /\ forall n, countable ty n) ls ts -> forall n, Reads n ls ts [].
Proof.
  intros ls ts P F. induction F as [|x ty ls ts [M C] F IH]; intro n; [constructor|]. inversion P as [|? ? Px P']; subst.
  apply (line_bwd _ n) in M; [|apply C]. change ty with (l_type {| l_number := n; l_type := ty; l_text := x |}).
  apply Reads_line; [|exact M | exact (IH P' _)]. destruct Px as (c & v & -> & I). intro B. inversion B as [|? ? Bc _]; subst. revert I Bc. generalize c. clear.
  assert (K : Forall (fun c => is_ws c <> true) (lit "vostbcam")) by (repeat constructor; discriminate).
  intros c I. exact (Forall_in _ _ _ K I).
Qed.
Lemma stacked_parses : forall k b, parse_sdp (show_session (stacked (S k))) b = Ok (stacked k).
Proof.
  intros k b. apply document. pose proof (session_is_lines (stacked (S k))) as Sl.
  assert (Cl : session_clean (stacked (S k))).
  { split; [|vm_compute; intuition discriminate]. apply Forall_forall. intros ty Hty.
    assert (D : In ty fixed_items \/ ty = TyAttribute (last_simulcast (S k))).
    { change (In ty (map (fun n => nth n fixed_items (TyVersion 0)) [0; 1; 3; 4; 5; 6; 7]%nat ++ [TyAttribute (last_simulcast (S k))])) in Hty.
      apply in_app_or in Hty. destruct Hty as [Hty|[<-|[]]]; [left | right; reflexivity]. apply in_map_iff in Hty.
      destruct Hty as (n & <- & Hn). apply nth_In. cbn in Hn |- *. lia. }
    destruct D as [D| ->].
    - assert (F : forallb (fun ty => forallb (fun t => negb (contains 10 t)) (item_texts ty)) fixed_items = true) by reflexivity.
      rewrite forallb_forall in F. specialize (F _ D). apply Forall_forall. intros t Ht. rewrite forallb_forall in F. specialize (F _ Ht).
      apply contains_not_In. destruct (contains 10 t); [discriminate F | reflexivity].
    - constructor; [apply (stack_no 10 (S k)); vm_compute; intuition discriminate | constructor]. }
  destruct (session_lines_ok X _ Cl) as (_ & T & _). split.
  { rewrite Sl, stacked_lines. unfold crlf_lines. rewrite flat_map_app, byte_len_app.
    set (n := byte_len (flat_map _ (map printed_line fixed_items))). vm_compute in n. subst n. lia. }
  exists (fixed_items ++ [TyAttribute (last_simulcast k)]), []. split.
  { rewrite T. rewrite stacked_lines. apply means_read; [rewrite <- stacked_lines; apply session_plain|].
    apply Forall2_app; [apply fixed_means|]. constructor; [|constructor]. split; [apply last_means | intro n; exact I]. }
  split; [reflexivity|]. split; [reflexivity|]. split; [cbn; lia|]. split.
  - rewrite <- stacked_items. apply (names_assemble (stacked k)).
    + split; [exists 45, []; split; reflexivity | exists 45, []; split; reflexivity].
    + constructor.
    + constructor; [|constructor]. cbn [m_attribute stacked]. repeat (constructor; [vm_compute; tauto|]). constructor.
  - apply sanity_ok. vm_compute. reflexivity.
Qed.
Lemma stacked_rounds : forall k j, rounds k (stacked (k + j)) (stacked j).
Proof.
  intros k. induction k as [|k IH]; intro j; [constructor|]. replace (S k + j)%nat with (k + S j)%nat by lia.
  econstructor; [apply IH | apply stacked_parses].
Qed.
Lemma many_rounds : forall k, exists sdp s s1 s2, parse_sdp sdp true = Ok s /\ rounds k s s1 /\ parse_sdp (show_session s1) false = Ok s2 /\ show_session s2 <> show_session s1.
Proof.
  intro k. exists (show_session (stacked (S (k + 1)))), (stacked (k + 1)), (stacked 1), (stacked 0).
  split; [apply stacked_parses|]. split; [apply stacked_rounds|]. split; [apply stacked_parses | vm_compute; discriminate].
Qed.

Lemma session_round : forall sdp b s b' s', parse_sdp sdp b = Ok s -> ~ Exists item_nan (session_items s) ->
  (Z.of_nat (List.length (show_session s)) < 2147483648)%Z -> parse_sdp (show_session s) b' = Ok s' ->
  shrinks (show_session s) (show_session s').
Proof. intros sdp b s b' s' P N C P'. exact (proj2 (good_round _ _ _ (good_parsed _ _ _ P N C) P')). Qed.
Lemma session_second : forall sdp b s b1 s1 b2, parse_sdp sdp b = Ok s -> ~ Exists item_nan (session_items s) ->
  (Z.of_nat (List.length (show_session s)) < 2147483648)%Z -> ~ has_unsettled s ->
  parse_sdp (show_session s) b1 = Ok s1 -> 51 <= byte_len (show_session s1) ->
  parse_sdp (show_session s1) b2 = Ok (with_warnings s1 []).
Proof. intros sdp b s b1 s1 b2 P N C U P1 B. exact (second_round _ _ _ _ (good_parsed _ _ _ P N C) U P1 B). Qed.
Lemma session_rounds : forall sdp b s s1 s2, parse_sdp sdp b = Ok s -> ~ Exists item_nan (session_items s) ->
  (Z.of_nat (List.length (show_session s)) < 2147483648)%Z -> rounds (List.length (show_session s)) s s1 ->
  parse_sdp (show_session s1) false = Ok s2 -> show_session s2 = show_session s1 /\ parse_sdp (show_session s2) false = Ok s2.
Proof. intros sdp b s s1 s2 P N C R P2. exact (rounds_settle _ _ _ (good_parsed _ _ _ P N C) R P2). Qed.
End WithExt.

(** * The texts of IP addresses in lines: proofs for C61 *)
From Coq Require Import List Arith NArith Bool Ascii String Lia.
From Verif Require Import Str Num Net Types Ext Show Address AttrParse Media Session StrLemmas SpecVal SpecIp
  PVal PVal2 PVal9 PPrint4 PIp PIp2.
Import ListNotations.
Open Scope N_scope.
Open Scope list_scope.

Section WithExt.
Context {E : Ext}.
Lemma addresses : forall s a, address_from_str s = Ok a <->
  (In 58 s /\ exists i, ip_text s i /\ a = Ip i) \/
  (~ (In 58 s /\ exists i, ip_text s i) /\ exists h, host_parse s = Ok h /\ a = host_address h).
Proof.
  intros s a. unfold address_from_str.
  assert (C : contains c_colon s = true <-> In 58 s).
  { unfold contains. rewrite existsb_exists. split.
    - intros [x [X Y]]. apply N.eqb_eq in Y. subst x. exact X.
    - intros X. exists 58. split; [exact X|reflexivity]. }
  assert (D : contains c_colon s = false -> ~ In 58 s) by (intros X Y; apply C in Y; congruence).
  assert (H : forall f, (match host_parse s with Ok h => Ok (address_from_host h) | Err m => Err (f m) | Panic => Panic end
      = Ok a :> res ierr address) <-> exists h, host_parse s = Ok h /\ a = host_address h).
  { intros f. destruct (host_parse s) as [h|m|]; split.
    - intros X. injection X as <-. exists h. auto.
    - intros [h' [X ->]]. injection X as <-. reflexivity.
    - discriminate.
    - intros [h' [X _]]. discriminate.
    - discriminate.
    - intros [h' [X _]]. discriminate. }
  destruct (contains c_colon s).
  - pose proof (proj1 C eq_refl) as K. destruct (parse_ip s) as [i|] eqn:P.
    + pose proof (proj1 (ip_texts s i) P) as T. split.
      * intros X. injection X as <-. left. eauto.
      * intros [[_ [j [J ->]]]|[X _]]; [|exfalso; eauto]. rewrite (one_address _ _ _ T J). reflexivity.
    + cbv zeta. rewrite (H (fun _ => EIpAddress)). split.
      * intros X. right. split; [|exact X]. intros [_ [i T]]. apply ip_texts in T. congruence.
      * intros [[_ [j [J _]]]|[_ X]]; [|exact X]. apply ip_texts in J. congruence.
  - specialize (D eq_refl). cbv zeta. rewrite (H (fun m => EDomain m)). split.
    + intros X. right. split; [|exact X]. tauto.
    + intros [[X _]|[_ X]]; [contradiction|exact X].
Qed.

Definition plain_connection (n : N) : sdp_type :=
  TyConnection {| conn_address := TIp (V6 n); conn_ttl := None; conn_amount := None |}.
Lemma not_ws : forall c, 46 <= c <= 102 -> is_ws c = false.
Proof.
  intros c H. unfold is_ws.
  repeat match goal with |- context [?a =? ?b] => destruct (N.eqb_spec a b); [lia|] end.
  repeat match goal with |- context [?a <=? ?b] => destruct (N.leb_spec a b) end; try lia; reflexivity.
Qed.
Lemma connection_literals : forall s n k, ip6_text s n ->
  parse_sdp_line (lit "c=IN IP6 " ++ s) k =
  Ok {| l_number := k; l_type := plain_connection n; l_text := lit "c=IN IP6 " ++ s |}.
Proof.
  intros s n k H. change (lit "c=IN IP6 " ++ s) with (lit "c=" ++ (lit "IN IP6 " ++ s)).
  apply connection_line_iff. eexists. split; [|reflexivity].
  pose proof (text_chars s (V6 n) H) as C. pose proof (ip6_colon s n H) as K.
  assert (W : word s).
  { split; [intros ->; destruct K|]. eapply Forall_impl; [|exact C]. intros c X. apply not_ws, X. }
  exists (lit "IN"), (lit "IP6"), s, IpV6. split.
  { change (lit "IN IP6 " ++ s) with (join [32] [lit "IN"; lit "IP6"; s]). apply words_join.
    constructor; [|constructor; [|constructor; [exact W|constructor]]];
      (split; [discriminate|repeat constructor]). }
  split. { apply means_upper_iff; vm_compute; reflexivity. }
  split. { apply means_upper_iff; vm_compute; reflexivity. }
  exists s, []. split.
  { apply fields_last. intros X. rewrite Forall_forall in C. apply C in X. lia. }
  split; [|split; reflexivity]. cbn [conn_address]. right. right. split; [reflexivity|].
  exists n. split; [|reflexivity]. left. split; [exact K|]. exists (V6 n). split; [|reflexivity].
  apply ip6_texts. exact H.
Qed.
Lemma connection_printed : forall n t, n < 2 ^ 128 ->
  (show_connection {| conn_address := TIp (V6 n); conn_ttl := None; conn_amount := None |} = lit "IN IP6 " ++ t <->
   printed_ip (V6 n) t).
Proof.
  intros n t H. rewrite <- (printed_texts (V6 n) t H). unfold show_connection.
  cbn [conn_address conn_ttl conn_amount show_typed_address show_ip].
  assert (X : forall a b : str, lit "IN IP6 " ++ a = lit "IN IP6 " ++ b <-> a = b).
  { intros a b. split; [apply app_inv_head|intros ->; reflexivity]. }
  match goal with |- ?l = _ <-> _ => replace l with (lit "IN IP6 " ++ show_ip6 n) end; [apply X|].
  unfold show_opt. rewrite ?app_nil_r. reflexivity.
Qed.
End WithExt.

(** * Lines of the RFCs are printed as lines of the RFCs (C81): documents *)
From Coq Require Import List Arith NArith ZArith Lia Bool Ascii String.
From Coq Require Import ZifyBool ZifyNat ZifyN.
From Verif Require Import Str Num Net Types Ext Show Address AttrParse Media Session SpecApi SpecDoc SpecVal SpecItems
  SpecPrint SpecIp SpecGrammar.
From Verif Require Import StrLemmas NumLemmas NetLemmas PVal PVal2 PVal6 PVal8 PVal9 PVal10 PVal11 PPrint PPrint2 PPrint3 PPrint4
  PPrint9 PPrint11 PIp PIp2 PDoc3 PExt0 PSettle PDoc2 PGrow PGram.
From Verif Require Import SpecRfc PRfc PRfc2 PRfc3 PRfc4 PRfc5 PRfc6 PRfc7 PRfc9 PRfc16 PRfc17 PRfc18 PRfc19 PRfc20 PRfc21 PRfc22 PRfc23.
Import ListNotations.
Open Scope N_scope.
Open Scope list_scope.


Section WithExt.
Context {E : Ext}.
Hypothesis OK : ext_ok E.
(** A line of one of the rules, or what is left of an fmtp or ssrc line. *)
Definition line_again (l : str) : Prop :=
  (exists kinds, of_kind kinds l) \/ l = lit "a=" \/ exists v, l = lit "a=ssrc:" ++ v ++ [58].
Lemma of_rule : forall k r l, In (k, r) (rfc_attributes ++ rfc_lines) -> gen r l -> exists kinds, of_kind kinds l.
Proof. intros k r l M G. exists [k], k, r. split; [left; reflexivity|]. auto. Qed.
Lemma value_in : forall k rule, In (k, rule) rfc_values -> In (k, cats [Lit "a="; Lit k; Lit ":"; rule]) (rfc_attributes ++ rfc_lines).
Proof.
  intros k rule M. apply in_app_iff. left. apply in_app_iff. right. apply in_map_iff. exists (k, rule). split; [reflexivity|exact M].
Qed.
Lemma rule_of : forall k r, In (k, r) (rfc_attributes ++ rfc_lines) -> In k ["fmtp"; "ssrc"]%string ->
  r = cats [Lit "a="; Lit k; Lit ":"; if String.eqb k "fmtp" then rfc_fmtp else rfc_ssrc].
Proof.
  intros k r M K. apply in_app_iff in M. destruct M as [M|M].
  - apply in_app_iff in M. destruct M as [M|M].
    + exfalso. apply in_map_iff in M. destruct M as [n [Q M]]. injection Q as -> _.
      destruct K as [<-|[<-|[]]]; unfold flags in M; cbn [In] in M; repeat (destruct M as [M|M]; [discriminate M|]); exact M.
    + apply in_map_iff in M. destruct M as [[n rule] [Q M]]. cbn [fst snd] in Q. injection Q as -> <-.
      assert (J : rule = if String.eqb k "fmtp" then rfc_fmtp else rfc_ssrc); [|rewrite J; reflexivity].
      unfold rfc_values in M. cbn [In] in M.
      destruct K as [<-|[<-|[]]]; cbn [String.eqb Ascii.eqb Bool.eqb];
        repeat (destruct M as [M|M]; [first [discriminate M | injection M as <-; reflexivity]|]); destruct M.
  - exfalso. unfold rfc_lines in M. cbn [In] in M.
    destruct K as [<-|[<-|[]]]; repeat (destruct M as [M|M]; [discriminate M|]); exact M.
Qed.
Lemma line_printed : forall t n l, (exists kinds, of_kind kinds t) -> parse_sdp_line t n = Ok l ->
  line_again (printed_line (l_type l)) /\ forall x, l_type l = TySession x -> gen byte_string x.
Proof.
  intros t n l (kinds & k & r & _ & M & G) P.
  destruct (String.eqb_spec k "fmtp") as [->|N1]; [|destruct (String.eqb_spec k "ssrc") as [->|N2]].
  - rewrite (rule_of _ _ M) in G by (left; reflexivity). cbn [String.eqb Ascii.eqb Bool.eqb] in G.
    destruct (fmtp_again t n G) as (f & Q & K). rewrite Q in P. injection P as <-. cbn [l_type]. split; [|discriminate].
    destruct K as [K|K]; [right; left; exact K|]. left. apply (of_rule "fmtp" _ _ (value_in "fmtp" rfc_fmtp ltac:(unfold rfc_values; cbn [In]; tauto)) K).
  - rewrite (rule_of _ _ M) in G by (right; left; reflexivity). cbn [String.eqb Ascii.eqb Bool.eqb] in G.
    destruct (ssrc_again t n G) as (s & Q & K). rewrite Q in P. injection P as <-. cbn [l_type]. split; [|discriminate].
    destruct (ssrc_value s) as [[|c v]|] eqn:SV.
    + right. right. exists (show_N (ssrc_id s) ++ show_opt sp (fun x => x) [] (ssrc_attribute s)).
      unfold printed_line. cbn [line_letter item_text show_attr]. unfold show_ssrc. rewrite SV. cbn [show_opt].
      rewrite (words_shown TSsrc _ _ (word_N (ssrc_id s))). cbn [app show_attr_type]. rewrite <- app_assoc. reflexivity.
    + left. apply (of_rule "ssrc" _ _ (value_in "ssrc" rfc_ssrc ltac:(unfold rfc_values; cbn [In]; tauto))). apply K. discriminate.
    + left. apply (of_rule "ssrc" _ _ (value_in "ssrc" rfc_ssrc ltac:(unfold rfc_values; cbn [In]; tauto))). apply K. discriminate.
  - destruct (lines_retaken OK k r t N1 N2 M G n) as (ty & Q & I & K). rewrite Q in P. injection P as <-. cbn [l_type].
    split; [left; exact (of_rule _ _ _ M K)|]. intros x ->. cbn [item_name] in I. subst k.
    apply in_app_iff in M. destruct M as [M|M].
    { exfalso. apply in_app_iff in M. destruct M as [M|M]; apply in_map_iff in M; destruct M as [y [Q1 M]]; injection Q1 as Q1 _.
      - subst y. unfold flags in M. cbn [In] in M. repeat (destruct M as [M|M]; [discriminate M|]). exact M.
      - unfold rfc_values in M. cbn [In] in M. repeat (destruct M as [M|M]; [subst y; discriminate Q1|]). exact M. }
    assert (R : r = Cat (Lit "s=") byte_string).
    { unfold rfc_lines in M. cbn [In] in M. repeat (destruct M as [M|M]; [first [discriminate M|injection M as <-; reflexivity]|]). destruct M. }
    subst r. apply g_inv_cat in K. destruct K as (a & b & Q1 & A & B). apply g_inv_lit in A. subst a.
    unfold printed_line in Q1. cbn [line_letter item_text] in Q1. injection Q1 as ->. exact B.
Qed.
Lemma reads_from : forall n ls ts ws, Reads n ls ts ws -> forall ty, In ty ts ->
  exists t k l, In t ls /\ ~ blank t /\ parse_sdp_line t k = Ok l /\ l_type l = ty.
Proof.
  intros n ls ts ws R. induction R as [n|n line rest ts ws B R IH|n line rest ts ws l B P R IH|n line rest ts ws e B P R IH]; intros ty M.
  - destruct M.
  - destruct (IH ty M) as (t & k & l & A & C). exists t, k, l. split; [right; exact A|exact C].
  - destruct M as [<-|M]; [exists line, n, l; split; [left; reflexivity|]; auto|].
    destruct (IH ty M) as (t & k & l' & A & C). exists t, k, l'. split; [right; exact A|exact C].
  - destruct (IH ty M) as (t & k & l & A & C). exists t, k, l. split; [right; exact A|exact C].
Qed.
Lemma attributes_printed : forall (P : str -> Prop) l, P (lit "a=") -> (forall a, In a l -> P (printed_line (TyAttribute a))) -> Forall P (attribute_lines l).
Proof.
  intros P l H K. unfold attribute_lines. destruct l as [|a l]; [constructor|].
  assert (F : Forall P (map (app (lit "a=")) (filter (fun t => match t with [] => false | _ => true end) (map show_attr (a :: l))))).
  { apply Forall_map, Forall_forall. intros t T. apply filter_In in T. destruct T as [T _]. apply in_map_iff in T. destruct T as [x [<- X]]. exact (K x X). }
  destruct (filter _ _); [constructor; [exact H|constructor]|exact F].
Qed.
Lemma documents_again : forall sdp strict s,
  Forall (fun t => blank t \/ exists kinds, of_kind kinds t) (lines sdp) -> parse_sdp sdp strict = Ok s ->
  Forall line_again (lines (show_session s)).
Proof.
  intros sdp strict s F P. destruct (session_lines_ok OK s (parsed_clean OK _ _ _ P)) as (_ & -> & _).
  apply document in P. destruct P as (_ & ts & ws & R & _ & _ & _ & A & _).
  assert (K : forall ty, In ty ts -> line_again (printed_line ty) /\ forall x, ty = TySession x -> gen byte_string x).
  { intros ty M. destruct (reads_from _ _ _ _ R ty M) as (t & k & l & T & B & P & <-). rewrite Forall_forall in F.
    destruct (F t T) as [C|C]; [contradiction|]. exact (line_printed t k l C P). }
  clear R F. destruct A as (name & head & secs & -> & SN & _ & _ & SB & SA & ST & SC & SM).
  assert (KH : forall ty, In ty head -> line_again (printed_line ty)).
  { intros ty M. apply K. do 3 right. apply in_app_iff. left. exact M. }
  assert (KS : forall sec ty, In sec secs -> In ty (section_lines sec) -> line_again (printed_line ty)).
  { intros sec ty M T. apply K. do 3 right. apply in_app_iff. right. apply in_flat_map. exists sec. auto. }
  assert (EM : line_again (lit "a=")) by (right; left; reflexivity).
  assert (AH : forall a l, In a (attributes l) -> In (TyAttribute a) l).
  { intros a l M. apply in_flat_map in M. destruct M as [ty [M X]]. destruct ty; try destruct X as [<-|[]]; [exact M|..]; try destruct X. }
  assert (BH : forall a l, In a (bandwidths l) -> In (TyBandwidth a) l).
  { intros a l M. apply in_flat_map in M. destruct M as [ty [M X]]. destruct ty; cbn in X; try contradiction; destruct X as [<-|[]]; exact M. }
  assert (CH : forall a l, In a (connections l) -> In (TyConnection a) l).
  { intros a l M. apply in_flat_map in M. destruct M as [ty [M X]]. destruct ty; cbn in X; try contradiction; destruct X as [<-|[]]; exact M. }
  assert (TH : forall a l, In a (timings l) -> In (TyTiming a) l).
  { intros a l M. apply in_flat_map in M. destruct M as [ty [M X]]. destruct ty; cbn in X; try contradiction; destruct X as [<-|[]]; exact M. }
  unfold session_lines. rewrite SB, SA, ST, SC, SM.
  apply Forall_cons; [apply K; left; reflexivity|]. apply Forall_cons; [apply K; right; left; reflexivity|]. apply Forall_cons.
  { left. apply (of_rule "s" (Cat (Lit "s=") byte_string)); [apply in_app_iff; right; unfold rfc_lines; cbn [In]; tauto|].
    apply (gen_cat _ _ (lit "s=")); [constructor|]. cbn [item_text].
    destruct (K (TySession name)) as [_ B]; [right; right; left; reflexivity|]. specialize (B _ eq_refl).
    destruct (s_session s) as [x|]; [|apply g_many1; [discriminate|constructor; [lia|constructor]]].
    destruct SN as (w1 & w2 & -> & _ & _ & (c & y & Q & _) & _). apply g_inv_many1_chr in B. destruct B as [_ B].
    apply g_many1; [rewrite Q; discriminate|]. apply Forall_app in B. destruct B as [_ B]. apply Forall_app in B. apply B. }
  apply Forall_app. split.
  { apply Forall_map, Forall_forall. intros x M. destruct (last_of (timings head)) as [y|] eqn:Q; [|destruct M].
    destruct M as [<-|[]]. apply KH, TH. apply PVal4.last_of_In, Q. }
  apply Forall_app. split; [apply Forall_map, Forall_forall; intros x M; apply KH, BH, M|].
  apply Forall_app. split.
  { apply Forall_map, Forall_forall. intros x M. destruct (last_of (connections head)) as [y|] eqn:Q; [|destruct M].
    destruct M as [<-|[]]. apply KH, CH. apply PVal4.last_of_In, Q. }
  apply Forall_app. split; [apply attributes_printed; [exact EM|]; intros a M; apply KH, AH, M|].
  apply Forall_flat_map, Forall_map, Forall_forall. intros sec M. unfold media_lines, section_media.
  cbn [m_media m_bandwidth m_connection m_attribute].
  apply Forall_cons; [apply (KS sec _ M); left; reflexivity|].
  apply Forall_app. split; [apply Forall_map, Forall_forall; intros x X; apply (KS sec _ M); right; apply BH, X|].
  apply Forall_app. split.
  { apply Forall_map, Forall_forall. intros x X. apply (KS sec _ M). right. apply CH. destruct (connections (snd sec)) as [|y l]; [destruct X|].
    destruct X as [<-|[]]. left. reflexivity. }
  apply attributes_printed; [exact EM|]. intros a X. apply filter_In in X. apply (KS sec _ M). right. apply AH, X.
Qed.
End WithExt.

(** * Lemmas for C75: texts of the rules *)
From Coq Require Import List NArith ZArith Bool Ascii String Lia.
From Coq Require Import ZifyBool ZifyNat ZifyN.
From Verif Require Import Str Num Net Types Ext Ext0 Show Address AttrParse Media Session StrLemmas NumLemmas.
From Verif Require Import SpecApi SpecDoc SpecVal SpecGrammar SpecRfc SpecFloat SpecRfc2.
From Verif Require Import PVal PRfc10 PFloat4 PRfc9 PRfc11 PRfc12.
Import ListNotations.
Open Scope N_scope.
Open Scope list_scope.

Lemma xy_text : forall c t, 49 <= c <= 57 -> Forall dec t -> (List.length t <= 5)%nat -> gen xyvalue (c :: t).
Proof. intros c t C F L. apply (gen_cat _ _ [c] t); [constructor; exact C|]. apply gen_such; [apply PRfc9.g_many, F | lia]. Qed.
Ltac decs := repeat (apply Forall_cons; [unfold dec; lia|]); apply Forall_nil.
Ltac xy := apply xy_text; [lia | decs | cbn; lia].
Lemma sp_rule : forall c t, 49 <= c <= 57 -> Forall dec t -> (1 <= List.length t <= 4)%nat -> gen spvalue (c :: 46 :: t).
Proof.
  intros c t C F L. apply gen_or_right. apply (gen_cat _ (cats [Lit "."; digits 1 4]) [c] (46 :: t)); [constructor; exact C|].
  apply (gen_cat (Lit ".") (digits 1 4) [46] t); [apply (gen_lit ".")|]. apply gen_such; [apply PRfc9.g_many, F | lia].
Qed.
Ltac sp := apply sp_rule; [lia | decs | cbn; lia].
Lemma worth_one : forall t i f n, t = i ++ 46 :: f -> Forall dec i -> Forall dec f -> (List.length f <= 4)%nat ->
  n * 10 ^ N.of_nat (List.length f) = dec_value (i ++ f) * 10 ^ 4 -> forall n', worth t n' <-> n' = n.
Proof.
  intros t i f n -> I F L W n'. split.
  - intros (i' & f' & Q & I' & F' & L' & W'). destruct (cut_once 46 (i ++ 46 :: f) i f i' f') as [<- <-].
    + split; [reflexivity | apply dec_no; [exact I|nodec]].
    + split; [exact Q | apply dec_no; [exact I'|nodec]].
    + rewrite <- W in W'. apply N.mul_cancel_r in W'; [exact W'|]. apply N.pow_nonzero. lia.
  - intros ->. exists i, f. auto.
Qed.
Lemma worth_13 : forall n, worth (lit "1.3") n <-> n = 13000.
Proof. apply (worth_one _ [49] [51]); [reflexivity|decs|decs|cbn; lia|reflexivity]. Qed.
Lemma worth_11 : forall n, worth (lit "1.1") n <-> n = 11000.
Proof. apply (worth_one _ [49] [49]); [reflexivity|decs|decs|cbn; lia|reflexivity]. Qed.
Lemma worth_12 : forall n, worth (lit "1.2") n <-> n = 12000.
Proof. apply (worth_one _ [49] [50]); [reflexivity|decs|decs|cbn; lia|reflexivity]. Qed.
Lemma falling : ~ grows 44 (lit "1.3,1.1").
Proof.
  intros (ts & ns & Fd & W & R). apply fields_split in Fd. change (split 44 (lit "1.3,1.1")) with [lit "1.3"; lit "1.1"] in Fd. subst ts.
  inversion W as [|? x ? xs W1 W2]; subst. inversion W2 as [|? y ? ys W3 W4]; subst. apply worth_13 in W1. apply worth_11 in W3. destruct R as (_ & R & _). lia.
Qed.
Lemma growing : grows 44 (lit "1.1,1.3").
Proof.
  exists [lit "1.1"; lit "1.3"], [11000; 13000]. split; [apply fields_split; reflexivity|]. split; [|cbn [rising]; lia].
  constructor; [apply worth_11; reflexivity|]. constructor; [apply worth_13; reflexivity|constructor].
Qed.
Lemma growing_range : grows 45 (lit "1.2-1.3").
Proof.
  exists [lit "1.2"; lit "1.3"], [12000; 13000]. split; [apply fields_split; reflexivity|]. split; [|cbn [rising]; lia].
  constructor; [apply worth_12; reflexivity|]. constructor; [apply worth_13; reflexivity|constructor].
Qed.
Lemma star_list : gen image_list_rule (lit "*").
Proof. apply gen_or_left. apply (gen_lit "*"). Qed.
Lemma star_way : forall d, gen (one_way d) (of_string d ++ lit " *").
Proof. intro d. apply (gen_cat _ (cats [Lit " "; image_list_rule])); [apply gen_lit|]. apply (gen_cat (Lit " ") _ (lit " ") (lit "*")); [apply (gen_lit " ")|exact star_list]. Qed.
Lemma step_range : forall a b c, gen xyvalue a -> gen xyvalue b -> gen xyvalue c -> gen xyrange (lit "[" ++ a ++ lit ":" ++ b ++ lit ":" ++ c ++ lit "]").
Proof.
  intros a b c A B C. apply gen_or_right, gen_or_left. apply gen_cat; [apply (gen_lit "[")|]. apply gen_cat; [exact A|]. apply gen_cat; [apply (gen_lit ":")|].
  rewrite (app_assoc b). apply gen_cat; [apply g_opt; apply gen_cat; [exact B | apply (gen_lit ":")]|]. apply (gen_cat _ (Lit "]")); [exact C | apply (gen_lit "]")].
Qed.
Lemma first_set : gen image_set_rule (lit "[x=[480:16:800],y=[320:16:640],par=[1.2-1.3],q=0.6]").
Proof.
  by_pieces [lit "[x="; lit "[480:16:800]"; lit ",y="; lit "[320:16:640]"; lit ",par=[1.2-1.3],q=0.6"; lit "]"].
  - apply (step_range (lit "480") (lit "16") (lit "800")); xy.
  - apply (step_range (lit "320") (lit "16") (lit "640")); xy.
  - apply (gen_many_cons _ (lit ",par=[1.2-1.3]") (lit ",q=0.6")).
    + apply (gen_cat _ _ (lit ",") (lit "par=[1.2-1.3]")); [apply (gen_lit ",")|]. apply gen_or_right, gen_or_left.
      apply (gen_cat _ _ (lit "par=") (lit "[1.2-1.3]")); [apply (gen_lit "par=")|]. by_pieces [lit "["; lit "1.2-1.3"; lit "]"].
      apply gen_such; [|exact growing_range]. by_pieces [lit "1.2"; lit "-"; lit "1.3"]; sp.
    + apply (gen_many_cons _ (lit ",q=0.6") []); [|constructor]. apply (gen_cat _ _ (lit ",") (lit "q=0.6")); [apply (gen_lit ",")|]. apply gen_or_right, gen_or_right, gen_or_left.
      apply (gen_cat _ _ (lit "q=") (lit "0.6")); [apply (gen_lit "q=")|]. apply gen_or_left. apply (gen_cat _ _ (lit "0.") (lit "6")); [apply (gen_lit "0.")|].
      apply gen_such; [apply PRfc9.g_many; decs | cbn; lia].
Qed.
Lemma second_set : gen image_set_rule (lit "[x=[176,208],y=144,sar=[1.1,1.3],foo=bar]").
Proof.
  by_pieces [lit "[x="; lit "[176,208]"; lit ",y="; lit "144"; lit ",sar=[1.1,1.3],foo=bar"; lit "]"].
  - apply gen_or_right, gen_or_right. by_pieces [lit "["; lit "176"; lit ",208"; lit "]"]; [xy|]. apply (g_word1 "," xyvalue (lit "208")). xy.
  - apply gen_or_left. xy.
  - apply (gen_many_cons _ (lit ",sar=[1.1,1.3]") (lit ",foo=bar")).
    + apply (gen_cat _ _ (lit ",") (lit "sar=[1.1,1.3]")); [apply (gen_lit ",")|]. apply gen_or_left.
      apply (gen_cat _ _ (lit "sar=") (lit "[1.1,1.3]")); [apply (gen_lit "sar=")|]. apply gen_or_right, gen_or_right. by_pieces [lit "["; lit "1.1,1.3"; lit "]"].
      apply gen_such; [|exact growing]. apply (gen_cat _ _ (lit "1.1") (lit ",1.3")); [sp|]. apply (g_word1 "," spvalue (lit "1.3")). sp.
    + apply (gen_many_cons _ (lit ",foo=bar") []); [|constructor]. apply (gen_cat _ _ (lit ",") (lit "foo=bar")); [apply (gen_lit ",")|]. apply gen_or_right, gen_or_right, gen_or_right.
      by_pieces [lit "foo"; lit "="; lit "bar"].
      apply gen_such; [leaf|]. cbn. intros [K|[K|[K|[]]]]; discriminate K.
Qed.
Lemma example_imageattr : gen imageattr_line (lit "a=imageattr:97 send [x=[480:16:800],y=[320:16:640],par=[1.2-1.3],q=0.6] [x=[176,208],y=144,sar=[1.1,1.3],foo=bar] recv *").
Proof.
  apply (gen_cat _ _ (lit "a=imageattr:") (lit "97 send [x=[480:16:800],y=[320:16:640],par=[1.2-1.3],q=0.6] [x=[176,208],y=144,sar=[1.1,1.3],foo=bar] recv *")); [apply (gen_lit "a=imageattr:")|].
  by_pieces [lit "97"; lit " "; lit "send [x=[480:16:800],y=[320:16:640],par=[1.2-1.3],q=0.6] [x=[176,208],y=144,sar=[1.1,1.3],foo=bar] recv *"].
  apply gen_or_right, gen_or_right, gen_or_left. by_pieces [lit "send [x=[480:16:800],y=[320:16:640],par=[1.2-1.3],q=0.6] [x=[176,208],y=144,sar=[1.1,1.3],foo=bar]"; lit " "; lit "recv *"].
  - by_pieces [lit "send"; lit " "; lit "[x=[480:16:800],y=[320:16:640],par=[1.2-1.3],q=0.6] [x=[176,208],y=144,sar=[1.1,1.3],foo=bar]"].
    apply gen_or_right. apply (gen_cat _ _ (lit "[x=[480:16:800],y=[320:16:640],par=[1.2-1.3],q=0.6]") (lit " [x=[176,208],y=144,sar=[1.1,1.3],foo=bar]")); [exact first_set|].
    rewrite <- (app_nil_r (lit " [x=[176,208],y=144,sar=[1.1,1.3],foo=bar]")). constructor; [|constructor].
    apply (gen_cat _ _ (lit " ") (lit "[x=[176,208],y=144,sar=[1.1,1.3],foo=bar]")); [apply (gen_lit " ")|exact second_set].
  - exact (star_way "recv").
Qed.

Section WithExt.
Context {E : Ext}.
Hypothesis St : std_floats E.
Lemma image_beyond_refused : forall r, In r image_beyond -> exists t, gen r t /\ forall n l, parse_sdp_line t n <> Ok l.
Proof.
  intros r M. unfold image_beyond in M. cbn [In] in M. destruct M as [<-|[<-|[<-|[<-|[]]]]].
  - exists (lit "a=imageattr:97  send *"). split; [|apply (refused_b (E := E)); intros n; vm_compute; reflexivity].
    by_pieces [lit "a=imageattr:"; lit "97"; lit "  "; lit "send"; lit " "; lit "*"].
  - exists (lit "a=imageattr:97 SEND *"). split; [|apply (refused_b (E := E)); intros n; vm_compute; reflexivity].
    by_pieces [lit "a=imageattr:"; lit "97"; lit " "; lit "SEND"; lit " "; lit "*"].
  - exists (lit "a=imageattr:97 send * send *"). split; [|apply (refused_b (E := E)); intros n; vm_compute; reflexivity].
    by_pieces [lit "a=imageattr:"; lit "97"; lit " "; lit "send *"; lit " "; lit "send *"]; exact (star_way "send").
  - exists (lit "a=framerate:" ++ 49 :: repeat 48 310). split.
    + apply gen_cat; [apply (gen_lit "a=framerate:")|]. apply gen_or_left. apply (gen_cat _ _ [49]); [constructor; lia|]. apply PRfc9.g_many. apply Forall_forall. intros c H. apply repeat_spec in H. subst c. unfold dec. lia.
    + intros n l H. apply (framerate_lines St) in H. destruct H as (x & H & _).
      assert (K : exists l', parse_sdp_line (E := Ext0) (lit "a=framerate:" ++ 49 :: repeat 48 310) 0 = Ok l').
      { eexists. apply (framerate_lines ext0_std). exists x. split; [exact H | reflexivity]. }
      destruct K as [l' K]. apply (f_equal okb) in K. cbn [okb] in K. revert K. 
      assert (B : okb (parse_sdp_line (E := Ext0) (lit "a=framerate:" ++ 49 :: repeat 48 310) 0) = false) by (vm_compute; reflexivity).
      rewrite B. discriminate.
Qed.
End WithExt.

(** * Lemmas for C56: documents section by section *)
From Coq Require Import List NArith ZArith Bool Ascii String Lia Permutation.
From Verif Require Import Str Num Net Types Ext Show AttrParse Media Session StrLemmas SpecApi SpecDoc SpecOrder SpecSections PDoc PDoc2 PDoc3 POrder.
Import ListNotations.
Open Scope N_scope.
Open Scope list_scope.
Section WithExt.
Context {E : Ext}.
Notation free := (Forall (fun t => ~ is_media t)).

(** ** Types of lines *)
Lemma split_unique : forall h1 s1 h2 s2, free h1 -> free h2 ->
  Forall (fun s : section => free (snd s)) s1 -> Forall (fun s : section => free (snd s)) s2 ->
  h1 ++ flat_map section_lines s1 = h2 ++ flat_map section_lines s2 -> h1 = h2 /\ s1 = s2.
Proof.
  intros h1 s1 h2 s2 F1 F2 G1 G2 Q. apply (f_equal chunks) in Q. rewrite !chunks_secs in Q by assumption.
  injection Q as -> ->. split; reflexivity.
Qed.
Lemma head_free : forall head, Forall session_item head -> free head.
Proof. intros head F. eapply Forall_impl; [|exact F]. intros t H [m ->]. exact H. Qed.
Lemma secs_free : forall secs, Forall section_ok secs -> Forall (fun s : section => free (snd s)) secs.
Proof.
  intros secs F. eapply Forall_impl; [|exact F]. intros s [H _]. eapply Forall_impl; [|exact H]. intros t Ht [m ->]. exact Ht.
Qed.
(** What the sections of a session have to fulfil besides being legal. *)
Definition section_fits (v : N) (o : origin) (name : str) (head : list sdp_type) (sec : section) : Prop :=
  section_ok sec /\ structural (assembled v o name head [sec]).
Lemma assembled_structural : forall v o name head secs, structural (assembled v o name head secs) <->
  structural (assembled v o name head []) /\ Forall (fun sec => structural (assembled v o name head [sec])) secs.
Proof.
  intros v o name head secs. split.
  - intros [T C X M]. cbn in *. split; [split; cbn; auto; intros [_ K]; inversion K|]. apply Forall_forall. intros sec I. split; cbn.
    + exact T.
    + destruct C as [C|C]; [left; exact C|]. right. constructor; [|constructor]. rewrite Forall_forall in C. apply C, in_map, I.
    + intros [K1 K2]. apply X. split; [exact K1|]. inversion K2 as [? ? K3|? ? K3]; subst; [|inversion K3].
      apply Exists_exists. exists (section_media sec). split; [apply in_map, I | exact K3].
    + constructor; [|constructor]. rewrite Forall_forall in M. apply M, in_map, I.
  - intros [[T _ _ _] F]. cbn in T. split; cbn.
    + exact T.
    + destruct (last_of (connections head)) as [c|] eqn:K; [left; exists c; reflexivity|]. right. apply Forall_forall. intros m Hm.
      apply in_map_iff in Hm. destruct Hm as (sec & <- & I). rewrite Forall_forall in F. destruct (F _ I) as [_ [C|C] _ _]; cbn in C.
      * rewrite K in C. destruct C as (c & C). discriminate C.
      * exact (Forall_inv C).
    + intros [K1 K2]. apply Exists_exists in K2. destruct K2 as (m & Hm & K2). apply in_map_iff in Hm. destruct Hm as (sec & <- & I).
      rewrite Forall_forall in F. destruct (F _ I) as [_ _ X _]. apply X. cbn. split; [exact K1 | left; exact K2].
    + apply Forall_forall. intros m Hm. apply in_map_iff in Hm. destruct Hm as (sec & <- & I).
      rewrite Forall_forall in F. destruct (F _ I) as [_ _ _ M]. cbn in M. exact (Forall_inv M).
Qed.
(** ** Lines *)
(** The lines of a section and what is read. *)
Definition reads_section (x : list str) (sec : section) (w : list (option (ierr * str))) : Prop :=
  free (snd sec) /\ forall n, exists ws, Reads n x (section_lines sec) ws /\ map said ws = w.
Lemma section_reads : forall x n ts ws, section_text x -> Reads n x ts ws ->
  exists sec, ts = section_lines sec /\ reads_section x sec (map said ws).
Proof.
  intros x n ts ws (line & body & -> & M & F) R. pose proof R as R0.
  destruct (Reads_media _ _ _ _ _ M R) as (m & t2 & Q & R2 & _). pose proof (Reads_not_media _ _ _ _ F R2) as Fr.
  exists (m, t2). split; [exact Q|]. split; [exact Fr|].
  intro n'. destruct (Reads_renumber _ _ _ _ R0 n') as (ws' & R' & Qw). exists ws'. rewrite Q in R'. split; [exact R' | symmetry; exact Qw].
Qed.
Lemma sections_read : forall secs n ts ws, Forall section_text secs -> Reads n (List.concat secs) ts ws ->
  exists sw, ts = flat_map section_lines (map fst sw) /\ map said ws = List.concat (map snd sw) /\
    Forall2 (fun x sw => reads_section x (fst sw) (snd sw)) secs sw.
Proof.
  induction secs as [|x secs IH]; intros n ts ws F R.
  - inversion R; subst. exists []. repeat split. constructor.
  - cbn [List.concat] in R. apply Reads_app in R. destruct R as (t1 & t2 & w1 & w2 & R1 & R2 & -> & ->). inversion F as [|? ? H1 H2]; subst.
    destruct (section_reads _ _ _ _ H1 R1) as (sec & -> & Rs). destruct (IH _ _ _ H2 R2) as (sw & -> & Qw & Rr).
    exists ((sec, map said w1) :: sw). split; [reflexivity|]. split; [cbn [map List.concat snd]; rewrite map_app, Qw; reflexivity|].
    constructor; [exact Rs | exact Rr].
Qed.
Lemma read_sections : forall secs sw, Forall2 (fun x sw => reads_section x (fst sw) (snd sw)) secs sw -> forall n,
  exists ws, Reads n (List.concat secs) (flat_map section_lines (map fst sw)) ws /\ map said ws = List.concat (map snd sw).
Proof.
  intros secs sw F. induction F as [|x [sec w] secs sw [_ H] F IH]; intro n.
  - exists []. split; [constructor | reflexivity].
  - cbn [fst snd] in H. destruct (H n) as (w1 & R1 & Q1). destruct (IH (n + List.length x)%nat) as (w2 & R2 & Q2).
    exists (w1 ++ w2). cbn [List.concat map flat_map fst snd]. split; [|rewrite map_app, Q1, Q2; reflexivity].
    apply Reads_app. exists (section_lines sec), (flat_map section_lines (map fst sw)), w1, w2. auto.
Qed.

(** ** Documents *)
Definition fits (head : list str) (secs : list (list str)) (b : bool) (v : N) (o : origin) (name : str) (items : list sdp_type)
    (wh : list perr) (sw : list (section * list (option (ierr * str)))) : Prop :=
  Reads 0 head (TyVersion v :: TyOrigin o :: TySession name :: items) wh /\ Forall session_item items /\
  structural (assembled v o name items []) /\
  Forall2 (fun x sw => reads_section x (fst sw) (snd sw)) secs sw /\
  Forall (section_fits v o name items) (map fst sw) /\
  (b = true -> wh = [] /\ List.concat (map snd sw) = []).
Definition outcome v o name items wh (sw : list (section * list (option (ierr * str)))) (s : session) : Prop :=
  with_warnings s [] = assembled v o name items (map fst sw) /\
  map said (s_warnings s) = map said wh ++ List.concat (map snd sw).

Lemma doc_fits : forall sdp head secs b s, document_text sdp head secs -> secs <> [] -> parse_sdp sdp b = Ok s ->
  exists v o name items wh sw, fits head secs b v o name items wh sw /\ outcome v o name items wh sw s.
Proof.
  intros sdp head secs b s (L & Fh & Fs) Ne P. apply document in P. destruct P as (_ & ts & ws & R & Qw & Qb & L4 & As & St).
  rewrite L in R. apply Reads_app in R. destruct R as (th & t2 & wh & w2 & Rh & Rs & -> & ->).
  destruct (sections_read _ _ _ _ Fs Rs) as (sw & -> & Qs & F2).
  apply (Assembles_warnings _ _ []) in As. apply Assembles_iff in As; [|reflexivity].
  destruct As as (v & o & name & items & ss & Q & Fi & Fok & Qa).
  pose proof (Reads_not_media _ _ _ _ Fh Rh) as Free.
  assert (Free2 : Forall (fun s : section => free (snd s)) (map fst sw)).
  { apply Forall_forall. intros x I. apply in_map_iff in I. destruct I as (y & <- & I).
    clear - F2 I. induction F2 as [|a c l l' Hac F2 IH]; [destruct I|]. destruct I as [->|I]; [exact (proj1 Hac) | exact (IH I)]. }
  destruct (split_unique th (map fst sw) (TyVersion v :: TyOrigin o :: TySession name :: items) ss Free) as [Q1 Q2]; [|exact Free2| |exact Q|].
  { repeat (constructor; [intros [m K]; discriminate K|]). apply head_free, Fi. }
  { apply secs_free, Fok. }
  subst th. rewrite Q2 in *. apply (proj2 (structural_warnings _ [])) in St. rewrite Qa in St. apply assembled_structural in St. destruct St as [St0 St].
  exists v, o, name, items, wh, sw. split.
  - split; [exact Rh|]. split; [exact Fi|]. split; [exact St0|]. split; [exact F2|]. split.
    + rewrite Q2. apply Forall_forall. intros x I. rewrite Forall_forall in Fok, St. split; [apply Fok, I | apply St, I].
    + intro B. apply Qb in B. apply app_eq_nil in B. destruct B as [-> ->]. split; [reflexivity|]. symmetry. exact Qs.
  - split; [rewrite Q2; exact Qa|]. rewrite Qw, map_app, Qs. reflexivity.
Qed.
Lemma fits_doc : forall sdp head secs b v o name items wh sw, document_text sdp head secs -> 51 <= byte_len sdp ->
  fits head secs b v o name items wh sw -> exists s, parse_sdp sdp b = Ok s /\ outcome v o name items wh sw s.
Proof.
  intros sdp head secs b v o name items wh sw (L & Fh & Fs) B (Rh & Fi & St0 & F2 & Fk & Qb).
  destruct (read_sections _ _ F2 (List.length head)) as (w2 & R2 & Q2).
  exists (with_warnings (assembled v o name items (map fst sw)) (wh ++ w2)). split.
  - apply document. split; [exact B|]. exists ((TyVersion v :: TyOrigin o :: TySession name :: items) ++ flat_map section_lines (map fst sw)), (wh ++ w2).
    split; [rewrite L; apply Reads_app; exists (TyVersion v :: TyOrigin o :: TySession name :: items), (flat_map section_lines (map fst sw)), wh, w2; auto|].
    split; [reflexivity|]. split.
    { intro Hb. destruct (Qb Hb) as [-> Qc]. rewrite Qc in Q2. apply map_eq_nil in Q2. subst w2. reflexivity. }
    assert (St : structural (assembled v o name items (map fst sw))).
    { apply assembled_structural. split; [exact St0|]. eapply Forall_impl; [|exact Fk]. intros x [_ K]. exact K. }
    split; [|split; [|apply structural_warnings, St]].
    + destruct St0 as [[t K] _ _ _]. cbn [assembled s_timing] in K. destruct items; [discriminate K|]. cbn [app List.length]. lia.
    + apply Assembles_warnings. apply Assembles_iff; [reflexivity|]. exists v, o, name, items, (map fst sw).
      split; [reflexivity|]. split; [exact Fi|]. split; [|reflexivity]. eapply Forall_impl; [|exact Fk]. intros x [K _]. exact K.
  - split; [reflexivity|]. cbn [with_warnings s_warnings]. rewrite map_app, Q2. reflexivity.
Qed.

(** ** One section at a time *)
Notation annotated := (section * list (option (ierr * str)))%type.
Definition fits_head (head : list str) (b : bool) v o name items (wh : list perr) : Prop :=
  Reads 0 head (TyVersion v :: TyOrigin o :: TySession name :: items) wh /\ Forall session_item items /\
  structural (assembled v o name items []) /\ (b = true -> wh = []).
Definition fits_section (b : bool) v o name items (x : list str) (sw : annotated) : Prop :=
  reads_section x (fst sw) (snd sw) /\ section_fits v o name items (fst sw) /\ (b = true -> snd sw = []).
Lemma fits_iff : forall head secs b v o name items wh sw, fits head secs b v o name items wh sw <->
  fits_head head b v o name items wh /\ Forall2 (fits_section b v o name items) secs sw.
Proof.
  intros head secs b v o name items wh sw. unfold fits, fits_head. split.
  - intros (H1 & H2 & H3 & F & G & B). split; [split; [exact H1|]; split; [exact H2|]; split; [exact H3|]; intro K; apply (B K)|].
    assert (B2 : b = true -> Forall (fun x => snd x = []) sw).
    { intro K. destruct (B K) as [_ C]. clear - C. induction sw as [|x sw IH]; [constructor|]. cbn in C. apply app_eq_nil in C. constructor; [apply C | apply IH, C]. }
    clear - F G B2. induction F as [|x y l l' H F IH]; [constructor|]. cbn in G. inversion G; subst. constructor.
    + split; [exact H|]. split; [assumption|]. intro K. specialize (B2 K). inversion B2; assumption.
    + apply IH; [assumption|]. intro K. specialize (B2 K). inversion B2; assumption.
  - intros ((H1 & H2 & H3 & B) & F). split; [exact H1|]. split; [exact H2|]. split; [exact H3|]. split; [|split; [|intro H; split; [exact (B H)|]]].
    + clear - F. induction F as [|x y l l' (H & _) F IH]; constructor; assumption.
    + clear - F. induction F as [|x y l l' (_ & H & _) F IH]; constructor; assumption.
    + clear - F H. induction F as [|x y l l' (_ & _ & K) F IH]; [reflexivity|]. cbn. rewrite K by exact H. exact IH.
Qed.
Lemma Reads_warned : forall n ls ts ws, Reads n ls ts ws -> forall m ts' ws', Reads m ls ts' ws' -> map said ws = map said ws'.
Proof.
  intros n ls ts ws R. induction R as [n|n line rest ts ws B R IH|n line rest ts ws l B P R IH|n line rest ts ws e B P R IH];
    intros m ts' ws' R'; inversion R'; subst; try contradiction; eauto.
  - rewrite (line_renumber line n m), P in *. discriminate.
  - rewrite (line_renumber line n m), P in *. discriminate.
  - rewrite (line_renumber line n m), P in *. cbn [map said]. f_equal; [|eauto].
    match goal with K : Err _ = Err _ |- _ => cbn in K; inversion K; subst end. reflexivity.
Qed.
Lemma fits_head_unique : forall head b v o name items wh v' o' name' items' wh', fits_head head b v o name items wh ->
  fits_head head b v' o' name' items' wh' -> v = v' /\ o = o' /\ name = name' /\ items = items' /\ map said wh = map said wh'.
Proof.
  intros head b v o name items wh v' o' name' items' wh' (R & _) (R' & _). pose proof (Reads_types _ _ _ _ R _ _ _ R') as Q. injection Q as -> -> -> ->.
  repeat split. exact (Reads_warned _ _ _ _ R _ _ _ R').
Qed.
Lemma outcome_head : forall v o name items wh sw s wh' sw' s', outcome v o name items wh sw s -> outcome v o name items wh' sw' s' -> same_head s s'.
Proof.
  intros v o name items wh sw s wh' sw' s' (Q & _) (Q' & _). destruct s, s'. unfold with_warnings, assembled in Q, Q'. cbn in Q, Q'.
  inversion Q; inversion Q'; subst. repeat split.
Qed.
Lemma outcome_media : forall v o name items wh sw s, outcome v o name items wh sw s -> s_media s = map section_media (map fst sw).
Proof. intros v o name items wh sw s (Q & _). destruct s. unfold with_warnings, assembled in Q. cbn in *. inversion Q. reflexivity. Qed.
Lemma outcome_combined : forall v o name items wh sw s ss, outcome v o name items wh sw s ->
  Forall2 (fun x s1 => exists wh', map said wh' = map said wh /\ outcome v o name items wh' [x] s1) sw ss -> combined ss s.
Proof.
  intros v o name items wh sw s ss Out F. split; [|split].
  - clear - Out F. apply Forall_forall. intros s1 I. assert (X : exists x wh', outcome v o name items wh' [x] s1).
    { clear Out. induction F as [|x y l l' (wh' & _ & H) F IH]; [destruct I|]. destruct I as [->|I]; [eauto | exact (IH I)]. }
    destruct X as (x & wh' & O1). eapply outcome_head; eassumption.
  - rewrite (outcome_media _ _ _ _ _ _ _ Out). clear Out. induction F as [|x y l l' (wh' & _ & H) F IH]; [reflexivity|].
    cbn [map flat_map]. rewrite (outcome_media _ _ _ _ _ _ _ H), IH. reflexivity.
  - exists (map said wh), (map snd sw). split; [apply Out|]. clear Out. induction F as [|x y l l' (wh' & Q & H) F IH]; constructor; [|exact IH].
    destruct H as [_ H]. rewrite H, Q. cbn [map List.concat]. rewrite app_nil_r. reflexivity.
Qed.
Theorem whole_parts : forall sdp b s head secs ts, document_text sdp head secs -> secs <> [] -> parse_sdp sdp b = Ok s ->
  Forall2 (fun x t => document_text t head [x] /\ 51 <= byte_len t) secs ts ->
  exists ss, Forall2 (fun t s1 => parse_sdp t b = Ok s1) ts ss /\ combined ss s.
Proof.
  intros sdp b s head secs ts D Ne P F. destruct (doc_fits _ _ _ _ _ D Ne P) as (v & o & name & items & wh & sw & K & Out).
  apply fits_iff in K. destruct K as [Kh Ks].
  assert (X : exists ss, Forall2 (fun t s1 => parse_sdp t b = Ok s1) ts ss /\
    Forall2 (fun x s1 => exists wh', map said wh' = map said wh /\ outcome v o name items wh' [x] s1) sw ss).
  { clear - F Kh Ks. revert ts F. induction Ks as [|x y l l' H Ks IH]; intros ts F; inversion F as [|? t ? ts' [D B] F']; subst.
    - exists []. split; constructor.
    - destruct (IH _ F') as (ss & G1 & G2). destruct (fits_doc t head [x] b v o name items wh [y] D B) as (s1 & P1 & O1).
      { apply fits_iff. split; [exact Kh|]. constructor; [exact H | constructor]. }
      exists (s1 :: ss). split; constructor; try assumption. exists wh. split; [reflexivity | exact O1]. }
  destruct X as (ss & G1 & G2). exists ss. split; [exact G1|]. eapply outcome_combined; eassumption.
Qed.
Theorem parts_whole : forall sdp b head secs ts ss, document_text sdp head secs -> secs <> [] -> 51 <= byte_len sdp ->
  Forall2 (fun x t => document_text t head [x]) secs ts -> Forall2 (fun t s1 => parse_sdp t b = Ok s1) ts ss ->
  exists s, parse_sdp sdp b = Ok s /\ combined ss s.
Proof.
  intros sdp b head secs ts ss D Ne B F G.
  assert (X : exists v o name items wh, fits_head head b v o name items wh).
  { destruct F as [|x t secs ts Dt F]; [destruct (Ne eq_refl)|]. inversion G as [|? s1 ? ? P1 G']; subst.
    destruct (doc_fits _ _ _ _ _ Dt ltac:(discriminate) P1) as (v & o & name & items & wh & sw & K & _).
    apply fits_iff in K. exists v, o, name, items, wh. apply K. }
  destruct X as (v & o & name & items & wh & Kh).
  assert (X : exists sw, Forall2 (fits_section b v o name items) secs sw /\
    Forall2 (fun x s1 => exists wh', map said wh' = map said wh /\ outcome v o name items wh' [x] s1) sw ss).
  { clear - F G Kh. revert ss G. induction F as [|x t secs ts Dt F IH]; intros ss G; inversion G as [|? s1 ? ss' P1 G']; subst.
    - exists []. split; constructor.
    - destruct (IH _ G') as (sw & G1 & G2). destruct (doc_fits _ _ _ _ _ Dt ltac:(discriminate) P1) as (v' & o' & name' & items' & wh' & sw' & K & O1).
      apply fits_iff in K. destruct K as [Kh' Ks']. destruct (fits_head_unique _ _ _ _ _ _ _ _ _ _ _ _ Kh Kh') as (<- & <- & <- & <- & Qw).
      inversion Ks' as [|? y ? ? Ky Ky']; subst. inversion Ky'; subst. exists (y :: sw). split; constructor; try assumption.
      exists wh'. split; [symmetry; exact Qw | exact O1]. }
  destruct X as (sw & G1 & G2). destruct (fits_doc sdp head secs b v o name items wh sw D B) as (s & P & Out).
  { apply fits_iff. split; assumption. }
  exists s. split; [exact P|]. eapply outcome_combined; eassumption.
Qed.

(** ** Other choices of sections *)
Lemma Forall2_incl : forall {A B} (R : A -> B -> Prop) l m l', Forall2 R l m -> incl l' l -> exists m', Forall2 R l' m' /\ incl m' m.
Proof.
  intros A B R l m l' F. induction l' as [|x l' IH]; intro I; [exists []; split; [constructor | intros y []]|].
  destruct IH as (m' & F' & I'); [intros y Hy; apply I; right; exact Hy|].
  assert (X : exists y, In y m /\ R x y).
  { specialize (I x (or_introl eq_refl)). clear - F I. induction F as [|a c l m H F IH]; [destruct I|].
    destruct I as [->|I]; [exists c; split; [left; reflexivity | exact H]|]. destruct (IH I) as (y & J & K). exists y. split; [right; exact J | exact K]. }
  destruct X as (y & J & K). exists (y :: m'). split; [constructor; assumption|]. intros z [<-|Hz]; [exact J | exact (I' _ Hz)].
Qed.
Theorem other_sections : forall sdp sdp' b s head secs secs', document_text sdp head secs -> secs <> [] -> parse_sdp sdp b = Ok s ->
  document_text sdp' head secs' -> incl secs' secs -> 51 <= byte_len sdp' ->
  exists s', parse_sdp sdp' b = Ok s' /\ same_head s s' /\ incl (s_media s') (s_media s) /\ List.length (s_media s') = List.length secs'.
Proof.
  intros sdp sdp' b s head secs secs' D Ne P D' I B. destruct (doc_fits _ _ _ _ _ D Ne P) as (v & o & name & items & wh & sw & K & Out).
  apply fits_iff in K. destruct K as [Kh Ks]. destruct (Forall2_incl _ _ _ _ Ks I) as (sw' & Ks' & J).
  destruct (fits_doc sdp' head secs' b v o name items wh sw' D' B) as (s' & P' & Out'); [apply fits_iff; split; assumption|].
  exists s'. split; [exact P'|]. split; [eapply outcome_head; eassumption|]. rewrite (outcome_media _ _ _ _ _ _ _ Out), (outcome_media _ _ _ _ _ _ _ Out').
  split; [apply incl_map, incl_map, J|]. rewrite !map_length. symmetry. clear - Ks'. induction Ks'; cbn; congruence.
Qed.
Lemma concat_perm : forall {A} (l m : list (list A)), Permutation l m -> Permutation (List.concat l) (List.concat m).
Proof.
  intros A l m P. induction P as [|x l m P IH|x y l|l m n P IH Q IH2]; cbn.
  - constructor.
  - apply Permutation_app_head, IH.
  - rewrite !app_assoc. apply Permutation_app_tail, Permutation_app_comm.
  - eapply Permutation_trans; eassumption.
Qed.
Theorem permuted_sections : forall sdp sdp' b s head secs secs', document_text sdp head secs -> parse_sdp sdp b = Ok s ->
  document_text sdp' head secs' -> Permutation secs secs' -> 51 <= byte_len sdp' ->
  exists s', parse_sdp sdp' b = Ok s' /\ same_head s s' /\ Permutation (s_media s) (s_media s') /\
    Permutation (map said (s_warnings s)) (map said (s_warnings s')).
Proof.
  intros sdp sdp' b s head secs secs' D P D' Pm B. destruct secs as [|x secs].
  { apply Permutation_nil in Pm. subst secs'. exists s. split; [|split; [repeat split|split; apply Permutation_refl]].
    apply document in P. destruct P as (_ & P). apply document. split; [exact B|]. destruct D as (L & _), D' as (L' & _). rewrite L' , <- L. exact P. }
  destruct (doc_fits _ _ _ _ _ D ltac:(discriminate) P) as (v & o & name & items & wh & sw & K & Out).
  apply fits_iff in K. destruct K as [Kh Ks]. destruct (Permutation_Forall2 Pm Ks) as (sw' & Ps & Ks').
  destruct (fits_doc sdp' head secs' b v o name items wh sw' D' B) as (s' & P' & Out'); [apply fits_iff; split; assumption|].
  exists s'. split; [exact P'|]. split; [eapply outcome_head; eassumption|]. split.
  - rewrite (outcome_media _ _ _ _ _ _ _ Out), (outcome_media _ _ _ _ _ _ _ Out'). apply Permutation_map, Permutation_map, Ps.
  - destruct Out as [_ ->], Out' as [_ ->]. apply Permutation_app_head, concat_perm, Permutation_map, Ps.
Qed.
Theorem joined_sections : forall sdp1 sdp2 sdp b s1 s2 head secs1 secs2, document_text sdp1 head secs1 -> document_text sdp2 head secs2 ->
  secs1 <> [] -> secs2 <> [] -> parse_sdp sdp1 b = Ok s1 -> parse_sdp sdp2 b = Ok s2 ->
  document_text sdp head (secs1 ++ secs2) -> 51 <= byte_len sdp ->
  exists s, parse_sdp sdp b = Ok s /\ same_head s s1 /\ same_head s s2 /\ s_media s = s_media s1 ++ s_media s2.
Proof.
  intros sdp1 sdp2 sdp b s1 s2 head secs1 secs2 D1 D2 N1 N2 P1 P2 D B.
  destruct (doc_fits _ _ _ _ _ D1 N1 P1) as (v & o & name & items & wh & sw1 & K1 & Out1).
  destruct (doc_fits _ _ _ _ _ D2 N2 P2) as (v' & o' & name' & items' & wh' & sw2 & K2 & Out2).
  apply fits_iff in K1. destruct K1 as [Kh1 Ks1]. apply fits_iff in K2. destruct K2 as [Kh2 Ks2].
  destruct (fits_head_unique _ _ _ _ _ _ _ _ _ _ _ _ Kh1 Kh2) as (<- & <- & <- & <- & Qw).
  destruct (fits_doc sdp head (secs1 ++ secs2) b v o name items wh (sw1 ++ sw2) D B) as (s & P & Out).
  { apply fits_iff. split; [assumption|]. apply Forall2_app; assumption. }
  exists s. split; [exact P|]. split; [eapply outcome_head; eassumption|]. split; [eapply outcome_head; eassumption|].
  rewrite (outcome_media _ _ _ _ _ _ _ Out1), (outcome_media _ _ _ _ _ _ _ Out2), (outcome_media _ _ _ _ _ _ _ Out), !map_app. reflexivity.
Qed.
End WithExt.

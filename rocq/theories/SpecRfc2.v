(** * Frame rates and image attributes as RFC 8866 and RFC 6236 write them (C75)

    Rules of the same kind as in SpecRfc.v.  They do not mention the parser.
    Only definitions. *)
From Coq Require Import List NArith ZArith Bool Ascii String.
From Verif Require Import Str Num Net Types Ext Show SpecVal SpecGrammar SpecRfc SpecFloat.
Import ListNotations.
Open Scope N_scope.
Open Scope list_scope.

Definition dec (c : N) : Prop := 48 <= c <= 57.
Definition posdec : abnf := Chr (fun c => 49 <= c <= 57).
Definition digits (least most : nat) : abnf := row least most dec.

(** ** RFC 8866 section 6.13: framerate = integer / non-zero-real.  The RFC sets
    no length; up to 300 characters are in the range of a double. *)
Definition any_framerate : abnf :=
  Or (Cat posdec (Many (Chr dec)))
     (cats [Or (Lit "0") (Cat posdec (Many (Chr dec))); Lit "."; Many (Chr dec); posdec]).
Definition rfc_framerate : abnf := Such any_framerate (fun t => (List.length t <= 300)%nat).

(** ** RFC 6236 section 3.1.1 *)
Definition xyvalue : abnf := Cat posdec (digits 0 5).
Definition xyrange : abnf :=
  alt xyvalue
    [ cats [Lit "["; xyvalue; Lit ":"; opt (Cat xyvalue (Lit ":")); xyvalue; Lit "]"];
      cats [Lit "["; xyvalue; many1 (Cat (Lit ",") xyvalue); Lit "]"] ].
Definition spvalue : abnf :=
  Or (cats [Lit "0."; posdec; digits 0 3]) (cats [posdec; Lit "."; digits 1 4]).
(** What a decimal with up to four places is worth, in ten-thousandths. *)
Definition worth (t : str) (n : N) : Prop :=
  exists i f, t = i ++ 46 :: f /\ Forall dec i /\ Forall dec f /\ (List.length f <= 4)%nat /\
    n * 10 ^ N.of_nat (List.length f) = dec_value (i ++ f) * 10 ^ 4.
Fixpoint rising (x : N) (l : list N) : Prop :=
  match l with [] => True | y :: l' => x < y /\ rising y l' end.
(** "the values are given in increasing order", "low is less than high". *)
Definition grows (sep : N) (t : str) : Prop :=
  exists ts ns, fields sep t ts /\ Forall2 worth ts ns /\ rising 0 ns.
Definition sprange : abnf := cats [Lit "["; Such (cats [spvalue; Lit "-"; spvalue]) (grows 45); Lit "]"].
Definition srange : abnf :=
  alt spvalue [ sprange;
                cats [Lit "["; Such (Cat spvalue (many1 (Cat (Lit ",") spvalue))) (grows 44); Lit "]"] ].
Definition qvalue : abnf := Or (Cat (Lit "0.") (digits 1 2)) (Cat (Lit "1.") (row 1 2 (fun c => c = 48))).
(** "key-value": the three known keys, and others to be ignored. *)
Definition set_key_value : abnf :=
  alt (Cat (Lit "sar=") srange)
    [ Cat (Lit "par=") sprange; Cat (Lit "q=") qvalue;
      cats [Such (many1 (Chr alpha_num)) (fun t => ~ In t (map of_string ["sar"; "par"; "q"]%string)); Lit "=";
            many1 (Chr (fun c => alpha_num c \/ In c (lit ".-_")))] ].
Definition image_set_rule : abnf :=
  cats [Lit "[x="; xyrange; Lit ",y="; xyrange; Many (Cat (Lit ",") set_key_value); Lit "]"].
Definition image_list_rule : abnf := Or (Lit "*") (list_of " " image_set_rule).
Definition one_way (d : string) : abnf := cats [Lit d; Lit " "; image_list_rule].
Definition image_payload : abnf := Or (Lit "*") (at_most 127).
Definition rfc_imageattr : abnf :=
  cats [image_payload; Lit " ";
        alt (one_way "send")
          [ one_way "recv"; cats [one_way "send"; Lit " "; one_way "recv"]; cats [one_way "recv"; Lit " "; one_way "send"] ]].
Definition framerate_line : abnf := Cat (Lit "a=framerate:") rfc_framerate.
Definition imageattr_line : abnf := Cat (Lit "a=imageattr:") rfc_imageattr.

(** ** What the RFCs also allow: more blanks, words in upper case, the same
    direction twice, and frame rates out of the range of a double. *)
Definition blanks : abnf := many1 (Chr (fun c => c = 32 \/ c = 9)).
Definition image_beyond : list abnf :=
  [ cats [Lit "a=imageattr:"; image_payload; blanks; Lit "send"; blanks; image_list_rule];
    cats [Lit "a=imageattr:"; image_payload; Lit " "; nocase "send"; Lit " "; image_list_rule];
    cats [Lit "a=imageattr:"; image_payload; Lit " "; one_way "send"; Lit " "; one_way "send"];
    Cat (Lit "a=framerate:") any_framerate ].

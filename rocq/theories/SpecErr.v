(** * Specification vocabulary for the texts of errors (C73).  Only definitions. *)
From Coq Require Import List NArith Ascii String.
From Verif Require Import Str Num Net Types SpecVal SpecWhy.
Import ListNotations.
Open Scope N_scope.
Open Scope list_scope.

(** What std says about a number. *)
Definition int_texts : list (int_err * string) :=
  [ (IntEmpty, "cannot parse integer from empty string");
    (IntInvalidDigit, "invalid digit found in string");
    (IntPosOverflow, "number too large to fit in target type") ]%string.
Definition float_texts : list (float_err * string) :=
  [ (FloatEmpty, "cannot parse float from empty string");
    (FloatInvalid, "invalid float literal") ]%string.
Definition family_texts : list (addr_type * string) := [ (IpV4, "IP4"); (IpV6, "IP6") ]%string.

(** [reads e t]: a person told [t] has been told [e]. *)
Inductive reads : ierr -> str -> Prop :=
| reads_family : forall s, reads (UnknownAddressType s) (of_string "Unknown address type: " ++ s)
| reads_mismatch : forall f x tf tx, In (f, tf) family_texts -> In (x, tx) family_texts ->
    reads (AddressTypeMismatch f x)
      (of_string ("Address is of a different type(1) than declared(2): " ++ tf ++ ", " ++ tx)%string)
| reads_generic : forall m, reads (EGeneric m) (of_string "Parsing error: " ++ m)
| reads_unsupported : forall m, reads (EUnsupported m) (of_string "Unsupported parsing error: " ++ m)
| reads_int : forall k t, In (k, t) int_texts -> reads (EInteger k) (of_string ("Integer parsing error: " ++ t)%string)
| reads_float : forall k t, In (k, t) float_texts -> reads (EFloat k) (of_string ("Float parsing error: " ++ t)%string)
| reads_host : forall m, reads (EDomain m) (of_string "Domain name parsing error: " ++ m)
| reads_ip : reads EIpAddress (of_string "IP address parsing error: invalid IP address syntax").

(** The same for an error with the line it is about. *)
Inductive reports : perr -> str -> Prop :=
| reports_line : forall e l n t d, reads e t -> decimal (N.of_nat n) d ->
    reports (PLine e l n) (of_string "Line error: " ++ t ++ of_string " in line(" ++ d ++ of_string "): " ++ l)
| reports_unsupported : forall e l n t d, reads e t -> decimal (N.of_nat n) d ->
    reports (PUnsupported e l n) (of_string "Unsupported: " ++ t ++ of_string " in line(" ++ d ++ of_string "): " ++ l)
| reports_sequence : forall m n d, decimal (N.of_nat n) d ->
    reports (PSequence m n) (of_string "Sequence error in line(" ++ d ++ of_string "): " ++ m).

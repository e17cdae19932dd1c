(** * The fuzz target (fuzz/fuzz_targets/fuzz_target_parse_sdp.rs)

    Bytes are numbers below 256. *)
From Coq Require Import List NArith Bool.
From Verif Require Import Str Num Types Ext Session.
Import ListNotations.
Open Scope N_scope.
Open Scope list_scope.

Definition between (a x b : N) : bool := (a <=? x) && (x <=? b).
(** A continuation byte. *)
Definition is_cont (b : N) : bool := between 128 b 191.
(** The second byte of three and of four, which excludes overlong forms,
    surrogates and numbers above 10FFFF (table in the documentation of
    [core::str::from_utf8], RFC 3629 section 4). *)
Definition second_of_3 (b0 b1 : N) : bool :=
  if b0 =? 224 then between 160 b1 191 else if b0 =? 237 then between 128 b1 159 else between 128 b1 191.
Definition second_of_4 (b0 b1 : N) : bool :=
  if b0 =? 240 then between 144 b1 191 else if b0 =? 244 then between 128 b1 143 else between 128 b1 191.
(** [std::str::from_utf8]; the error is not looked at and therefore [None]. *)
Fixpoint from_utf8 (data : list N) : option str :=
  match data with
  | [] => Some []
  | b0 :: r0 =>
      if b0 <? 128 then option_map (cons b0) (from_utf8 r0)
      else if between 194 b0 223 then
        match r0 with
        | b1 :: r1 =>
            if is_cont b1 then option_map (cons ((b0 - 192) * 64 + (b1 - 128))) (from_utf8 r1) else None
        | _ => None
        end
      else if between 224 b0 239 then
        match r0 with
        | b1 :: b2 :: r2 =>
            if second_of_3 b0 b1 && is_cont b2
            then option_map (cons ((b0 - 224) * 4096 + (b1 - 128) * 64 + (b2 - 128))) (from_utf8 r2) else None
        | _ => None
        end
      else if between 240 b0 244 then
        match r0 with
        | b1 :: b2 :: b3 :: r3 =>
            if second_of_4 b0 b1 && is_cont b2 && is_cont b3
            then option_map (cons ((b0 - 240) * 262144 + (b1 - 128) * 4096 + (b2 - 128) * 64 + (b3 - 128))) (from_utf8 r3)
            else None
        | _ => None
        end
      else None
  end.

Section WithExt.
Context {E : Ext}.
(** fuzz_target_parse_sdp.rs:9-13; the result of the parser is dropped. *)
Definition fuzz_target (data : list N) : res unit unit :=
  match from_utf8 data with
  | Some s => match parse_sdp s true with Panic => Panic | _ => Ok tt end
  | None => Ok tt
  end.
End WithExt.

(** * Specification vocabulary for printing masked values (C51)

    Only definitions. *)
From Coq Require Import List NArith Bool Ascii String.
From Verif Require Import Str Num Net Types Ext Anon SpecApi SpecAnon SpecPrint.
Import ListNotations.
Open Scope N_scope.
Open Scope list_scope.

(** The values for which the anonymizer makes clones and that have a line of
    their own. *)
Definition line_value (v : aval) : option sdp_type :=
  match v with
  | VAttr x => Some (TyAttribute x)
  | VConnection c => Some (TyConnection c)
  | VOrigin o => Some (TyOrigin o)
  | _ => None
  end.
(** The masks do not run out of the range of 16-bit ports. *)
Definition ports_fit (l : list field) : Prop := distinct KPort l <= 65535.
Definition is_fingerprint (f : field) : Prop := exists b, f = FFp b.
Definition no_fingerprint (l : list field) : Prop := Forall (fun f => ~ is_fingerprint f) l.

(** Clones of the media sections, one after the other. *)
Fixpoint mask_medias (l : list media) (a : anon) : list media :=
  match l with
  | [] => []
  | m :: l' => let '(m', a) := mask_media m a in m' :: mask_medias l' a
  end.
(** What a caller has to do to get a clone of a session with its media sections:
    the clone of the session comes without (C32). *)
Definition mask_document (s : session) (a : anon) : session :=
  let '(s', a) := mask_session s a in
  {| s_version := s_version s'; s_origin := s_origin s'; s_session := s_session s';
     s_connection := s_connection s'; s_bandwidth := s_bandwidth s'; s_timing := s_timing s';
     s_attribute := s_attribute s'; s_media := mask_medias (s_media s) a;
     s_warnings := s_warnings s' |}.
Definition document_fields (s : session) : list field :=
  SpecAnon.fields (VSession s) ++ flat_map (fun m => SpecAnon.fields (VMedia m)) (s_media s).

Section WithExt.
Context {E : Ext}.
(** The host parser takes the names the anonymizer makes up for domain names. *)
Definition masked_names_are_domains : Prop :=
  forall n s, numbered (lit "fqdn-") n s -> domain s.
End WithExt.

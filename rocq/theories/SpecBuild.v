(** * Specification vocabulary for printing what was built with the API (C52)

    Only definitions. *)
From Coq Require Import List NArith ZArith Bool Ascii String.
From Verif Require Import Str Num Net Types Ext Show Media Session.
From Verif Require Import SpecApi SpecDoc SpecVal SpecItems SpecPrint.
Import ListNotations.
Open Scope N_scope.
Open Scope list_scope.

Section WithExt.
Context {E : Ext}.

(** Values that can be put on a line of their own and survive it (C11). *)
Definition solid (ty : sdp_type) : Prop := item_wf ty /\ ~ item_lossy ty /\ no_line_feed ty.

(** Calls with such arguments.  Ports, formats and the like go into the media
    line, which is looked at when everything has been built. *)
Definition media_op_solid (op : media_op) : Prop :=
  match op with
  | OpSetPort _ | OpRemoveAttribute _ | OpRemoveCodecs => True
  | OpAddBandwidth b => solid (TyBandwidth b)
  | OpSetConnection c => solid (TyConnection c)
  | OpAddAttribute a | OpSetAttribute a => solid (TyAttribute a)
  | OpAddCodec r => solid (TyAttribute (ARtpmap r))
  | OpAddDatachannel _ port streams size => u16 port /\ u32 streams /\ u64 size
  end.
Definition media_built_well (m : media) : Prop :=
  exists (l : media_line) (ops : list media_op), Forall media_op_solid ops /\
    m = fold_left (fun m op => run_media_op op m) ops (media_new l).
Definition session_op_solid (op : session_op) : Prop :=
  match op with
  | OpSessionConnection c => solid (TyConnection c)
  | OpSessionBandwidth b => solid (TyBandwidth b)
  | OpSessionTiming t => solid (TyTiming t)
  | OpSessionAttribute a => solid (TyAttribute a)
  | OpSessionLines l => Forall (fun x => solid (l_type x)) l
  | OpExtendMedia l => Forall media_built_well l
  | OpAddMedia _ d _ _ addr =>
      solid (TyAttribute d) /\
      solid (TyConnection {| conn_address := addr; conn_ttl := None; conn_amount := None |})
  | OpOnMedia _ op => media_op_solid op
  end.
Definition built_well (s : session) : Prop :=
  exists o name ops, solid (TyOrigin o) /\ ~ In 10 name /\ Forall session_op_solid ops /\
    s = fold_left (fun s op => run_session_op op s) ops (session_new 0 o name).
(** The media lines, as they are in the end. *)
Definition media_lines_solid (s : session) : Prop :=
  Forall (fun m => solid (TyMedia (m_media m))) (s_media s).

(** ** Offering audio and video with codecs *)
Record offer := {
  of_kind : media_value; of_direction : attr; of_port : N; of_proto : protocol_value;
  of_address : typed_address; of_codecs : list rtpmap
}.
Record offer_ok (o : offer) : Prop := {
  ok_kind : of_kind o = Audio \/ of_kind o = Video;
  ok_direction : In (of_direction o) [ASendrecv; ASendonly; ARecvonly; AInactive];
  ok_port : of_port o <= 65535;
  ok_address : solid (TyConnection {| conn_address := of_address o; conn_ttl := None; conn_amount := None |});
  ok_codecs : of_codecs o <> [];
  ok_each : Forall (fun r => solid (TyAttribute (ARtpmap r)) /\ payload_listed (rm_payload_type r)) (of_codecs o)
}.
(** [add_media], then [add_codec] for each codec of the new section. *)
Definition offer_calls (i : nat) (o : offer) : list session_op :=
  OpAddMedia (of_kind o) (of_direction o) (of_port o) (of_proto o) (of_address o) ::
  map (fun r => OpOnMedia i (OpAddCodec r)) (of_codecs o).
Fixpoint all_offers (i : nat) (l : list offer) : list session_op :=
  match l with [] => [] | o :: l' => offer_calls i o ++ all_offers (S i) l' end.
End WithExt.

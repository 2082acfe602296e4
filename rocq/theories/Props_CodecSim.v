(** * Properties: CodecSim

    Theorems only: each is closed by the lemma of the same name in L_CodecSim.v. *)
From Coq Require Import ZArith List Lia Bool String Ascii SpecFloat.
From Verif Require Import Base CdisBase DisCommon DisHeader DisLists DisSimman DisLogistics DisWarfare DisEntity DisEmission DisRadio DisIff DisText DisPdu DisPacket
  CdisRecords CdisBodies1 CdisBodies2 CdisIff CdisPdu SpecCdis SpecCdisPdu L_CdisBits L_CdisPdu CdisCodec1 CdisCodec2 CdisCodec3 SpecCodec L_Codec L_CodecDec L_CodecSim.
Import ListNotations. Open Scope Z_scope.

(** C33. A Create Entity, Remove Entity, Start/Resume, Stop/Freeze, Acknowledge, Action Request, Action Response, Data Query, Set Data, Data, Event Report or
   Comment PDU whose values fit the C-DIS fields (Stop/Freeze reason below 16 and frozen behavior below 8, acknowledge flag below 8, response flag below
   4, at most 255 fixed and 255 variable datums of at most 2047 octets each) is encoded, whatever the state of the encoder; what is written of it is read
   back by the C-DIS parser; and what the decoder, whatever its state, makes of that is the same body - but for the time interval of a Data Query, of
   which only the flag in the lowest bit is sure to survive - with the same exercise, type and, if it is well formed for the type, status. Neither codec's
   state changes. The decoder does not panic in a release build; in a debug build it can only panic on the 16-bit length of the DIS PDU. *)
Theorem cdis_simman_lossless : forall g o now est dst p, wf_body (pdu_body p) -> simman_narrow (pdu_body p) ->
  u8 (h_exercise (pdu_header p)) -> h_type (pdu_header p) = body_type (pdu_body p) ->
  exists c, encode g o now est p = Some (c, StateUnaffected, est) /\
  forall m, exists q, reads_back (w_cpdu m c) p_cpdu q (cpdu_length c - excess_cbody (cp_body c)) /\
  (exists p', decode Wrapping g o dst q = WOk [] (p', StateUnaffected, dst)) /\
  (forall m' p' r dst', decode m' g o dst q = WOk [] (p', r, dst') ->
    r = StateUnaffected /\ dst' = dst /\ simman_same (pdu_body p') (pdu_body p) /\
    h_exercise (pdu_header p') = h_exercise (pdu_header p) /\ h_type (pdu_header p') = h_type (pdu_header p) /\
    (forall s, h_status (pdu_header p) = Some s -> status_ok (h_type (pdu_header p)) s -> h_status (pdu_header p') = Some s)).
Proof. exact cdis_simman_lossless_pf. Qed.
Print Assumptions cdis_simman_lossless.

Example cdis_simman_lossless_example : (wf_body (pdu_body ex_set_data) /\ simman_narrow (pdu_body ex_set_data) /\ u8 (h_exercise (pdu_header ex_set_data)) /\
  h_type (pdu_header ex_set_data) = body_type (pdu_body ex_set_data)) /\
  (wf_body (pdu_body (ex_stop 15 7)) /\ simman_narrow (pdu_body (ex_stop 15 7)) /\ h_type (pdu_header (ex_stop 15 7)) = body_type (pdu_body (ex_stop 15 7))).
Proof.
  cbn -[Z.lt Z.le]. unfold wf_SetData, wf_StopFreeze, wf_EntityId, wf_SimulationAddress, wf_ClockTime, datums_narrow, u8, u16, u32, i32, zlen. cbn -[Z.lt Z.le].
  repeat lazymatch goal with |- _ /\ _ => split | |- Forall _ [] => constructor | |- Forall _ (_ :: _) => constructor end; unfold wf_FixedDatum, wf_VariableDatum, bytes, u8, u32, zlen; cbn -[Z.lt Z.le];
    repeat lazymatch goal with |- _ /\ _ => split | |- Forall _ [] => constructor | |- Forall _ (_ :: _) => constructor end; cbn -[Z.lt Z.le]; try reflexivity; unfold u8; try lia.
Qed.

(** C33. The narrowing is real: a Stop/Freeze PDU with reason 16 comes out with reason 0, and one with the fourth frozen behavior bit comes out without it. *)
Theorem cdis_simman_narrowing_refuted : forall g o now est dst, (exists c r buf q rest p', encode g o now est (ex_stop 16 0) = Some (c, r, est) /\
    w_cpdu Checked c = WOk buf tt /\ p_cpdu buf = POk rest q /\ decode Checked g o dst q = WOk [] (p', StateUnaffected, dst) /\
    match pdu_body p' with BStopFreeze x => StopFreeze_reason x = 0 | _ => False end) /\
  (exists c r buf q rest p', encode g o now est (ex_stop 1 8) = Some (c, r, est) /\
    w_cpdu Checked c = WOk buf tt /\ p_cpdu buf = POk rest q /\ decode Checked g o dst q = WOk [] (p', StateUnaffected, dst) /\
    match pdu_body p' with BStopFreeze x => StopFreeze_frozen_behavior x = 0 | _ => False end).
Proof. exact cdis_simman_narrowing_refuted_pf. Qed.
Print Assumptions cdis_simman_narrowing_refuted.

(** C42. Whatever the PDU and the states of the codecs: whether its time stamp is absolute or relative (the lowest bit) survives the trip over C-DIS, where 26 bits of the time stamp are written. *)
Theorem cdis_timestamp_flag : forall g o now est p c r est' m dst q p' r' dst', encode g o now est p = Some (c, r, est') ->
  ch_timestamp (cp_header q) = ch_timestamp (cp_header c) mod 2 ^ 26 -> decode m g o dst q = WOk [] (p', r', dst') ->
  Z.odd (h_time (pdu_header p')) = Z.odd (h_time (pdu_header p)).
Proof. exact cdis_timestamp_flag_pf. Qed.
Print Assumptions cdis_timestamp_flag.

(** C42. The time itself does not: half past the hour (2147483648, units of an hour / 2^31 doubled) is written as 47934848 and comes out as 51622148, 43 seconds past. *)
Theorem cdis_timestamp_refuted : forall g o now est dst, exists c r buf q rest p', encode g o now est (ex_timed 2147483648) = Some (c, r, est) /\
    w_cpdu Checked c = WOk buf tt /\ p_cpdu buf = POk rest q /\ decode Checked g o dst q = WOk [] (p', StateUnaffected, dst) /\
    ch_timestamp (cp_header q) = 47934848 /\ h_time (pdu_header p') = 51622148.
Proof. exact cdis_timestamp_refuted_pf. Qed.
Print Assumptions cdis_timestamp_refuted.

(** * Properties: CodecDec

    Theorems only: each is closed by the lemma of the same name in L_CodecDec.v. *)
From Coq Require Import ZArith List Lia Bool String Ascii SpecFloat.
From Verif Require Import Base CdisBase DisCommon DisHeader DisLists DisSimman DisLogistics DisWarfare DisEntity DisEmission DisRadio DisIff DisText DisPdu DisPacket
  CdisRecords CdisBodies1 CdisBodies2 CdisIff CdisPdu CdisCodec1 CdisCodec2 CdisCodec3 SpecCodec L_Codec L_CodecDec.
Import ListNotations. Open Scope Z_scope.

(** C31. Over every history of C-DIS PDUs given to one decoder in partial update mode: a partial Entity State, Emission, Designator or Transmitter PDU decodes
 to a PDU in which every static field it does not carry is that of the last full update received for the same entity (radio), whatever came in
 between: force, type, location, orientation, appearance; per system number name, function, location and per beam number fundamental parameters and
 beam data; code name, code, power, wavelength, spot location; radio type, antenna location, frequency, bandwidth, power, modulation. *)
Theorem cdis_partial_update_inherits : forall m g o l outs st,
  o_partial o = true -> decode_all m g o l = Some (outs, st) ->
  forall h1 c p h2 s f, combine l outs = h1 ++ (c, p) :: h2 -> csubject (cp_body c) = Some s -> (forall k, s <> SuIff k) -> flagged_full (cp_body c) = false ->
  last_received_full s h1 f -> inherits (cp_body c) (pdu_body p) f.
Proof. exact cdis_partial_update_inherits_pf. Qed.
Print Assumptions cdis_partial_update_inherits.

(** C31. A full update decodes the same whatever came before it. *)
Theorem cdis_full_update_stateless : forall g o st1 st2 b, flagged_full b = true -> fst (dec_body g o st1 b) = fst (dec_body g o st2 b).
Proof. exact cdis_full_update_stateless_pf. Qed.
Print Assumptions cdis_full_update_stateless.

(** C31. What an Entity State PDU does carry (dynamic fields, and static fields that are present) decodes the same whatever came before it; the capabilities, whose
 meaning depends on the entity type, do so when the type is present. *)
Theorem cdis_carried_fields_stateless : forall g o st1 st2 x, exists d e,
  fst (fst (dec_body g o st1 (CBEntityState x))) = BEntityState d /\ fst (fst (dec_body g o st2 (CBEntityState x))) = BEntityState e /\ same_dynamic_es d e /\
  (present (CEntityState_force x) -> EntityState_force_id d = EntityState_force_id e) /\
  (present (CEntityState_etype x) -> EntityState_entity_type d = EntityState_entity_type e /\ EntityState_capabilities d = EntityState_capabilities e) /\
  (present (CEntityState_location x) -> EntityState_location d = EntityState_location e) /\
  (present (CEntityState_orientation x) -> EntityState_orientation d = EntityState_orientation e) /\
  (present (CEntityState_appearance x) -> ea_word (EntityState_appearance d) = ea_word (EntityState_appearance e)) /\
  (present (CEntityState_marking x) -> EntityState_marking d = EntityState_marking e).
Proof. exact cdis_carried_fields_stateless_pf. Qed.
Print Assumptions cdis_carried_fields_stateless.

(** C31. The marking a partial Entity State update decodes to is that of the FIRST full update received for the entity, not that of the last: the decoder never
 updates the marking it keeps. *)
Theorem cdis_partial_update_marking : forall m g o l outs st,
  o_partial o = true -> decode_all m g o l = Some (outs, st) ->
  forall h1 c p h2 x d f, combine l outs = h1 ++ (c, p) :: h2 -> cp_body c = CBEntityState x -> pdu_body p = BEntityState d ->
  CEntityState_full x = false -> absent (CEntityState_marking x) -> first_received_full (SuEntity (EntityState_entity_id d)) h1 (BEntityState f) ->
  EntityState_marking d = EntityState_marking f.
Proof. exact cdis_partial_update_marking_pf. Qed.
Print Assumptions cdis_partial_update_marking.

(** C31. Before any full update was received for its entity, a partial update gets default values for the static fields it does not carry: type 0:0:0:0:0:0:0,
 force 0, location and orientation 0, and the marking "Marking". *)
Theorem cdis_partial_update_unknown : forall m g o l outs st,
  o_partial o = true -> decode_all m g o l = Some (outs, st) ->
  forall h1 c p h2 x d, combine l outs = h1 ++ (c, p) :: h2 -> cp_body c = CBEntityState x -> pdu_body p = BEntityState d ->
  partial_update (cp_body c) -> never_received_full (SuEntity (EntityState_entity_id d)) h1 ->
  EntityState_force_id d = 0 /\ EntityState_entity_type d = MkEntityType 0 0 0 0 0 0 0 /\ EntityState_location d = MkLocation 0 0 0 /\
  EntityState_orientation d = MkOrientation 0 0 0 /\ ea_word (EntityState_appearance d) = 0 /\ mk_string (EntityState_marking d) = [77; 97; 114; 107; 105; 110; 103].
Proof. exact cdis_partial_update_unknown_pf. Qed.
Print Assumptions cdis_partial_update_unknown.

(** C31. The IFF system identification a partial update decodes to is that of the first IFF PDU received with the full update flag. *)
Theorem cdis_partial_update_iff : forall m g o l outs st,
  o_partial o = true -> decode_all m g o l = Some (outs, st) ->
  forall h1 c p h2 x d, combine l outs = h1 ++ (c, p) :: h2 -> cp_body c = CBIff x -> pdu_body p = BIff d ->
  CIff_full x = false -> absent (CIff_system x) ->
  (forall f, first_received_full (SuIff (Iff_emitting_entity_id d)) h1 (BIff f) -> Iff_system_id d = Iff_system_id f) /\
  (never_received_full (SuIff (Iff_emitting_entity_id d)) h1 -> Iff_system_id d = MkSystemId 0 0 0 0).
Proof. exact cdis_partial_update_iff_pf. Qed.
Print Assumptions cdis_partial_update_iff.

(** C31. End to end. A sender's and a receiver's codec in partial update mode, over every history of DIS PDUs with clock readings: for every Entity State,
 Emission, Designator and Transmitter PDU, the PDU the receiver gets has the static fields (force, type, appearance; name and function by system number;
 code name and code; radio type) of the last PDU about the same entity (radio) that was sent in full: this one, if it was sent in full itself. *)
Theorem cdis_static_fields_end_to_end : forall m g o l cs st ds st',
  o_partial o = true -> encode_all g o l = Some (cs, st) -> decode_all m g o cs = Some (ds, st') ->
  forall h1 now p c h2 s, combine l cs = h1 ++ (now, p, c) :: h2 -> subject (pdu_body p) = Some s -> (forall k, s <> SuIff k) ->
  exists d, nth_error ds (length h1) = Some d /\
    (full_update (cp_body c) -> same_statics (pdu_body d) (pdu_body p)) /\
    (partial_update (cp_body c) -> exists t q, last_sent_full s h1 t q /\ same_statics (pdu_body d) (pdu_body q)).
Proof. exact cdis_static_fields_end_to_end_pf. Qed.
Print Assumptions cdis_static_fields_end_to_end.

(** C32. The encoder keeps its subjects apart: what it makes of the PDUs about one entity (one radio) in any history is what it makes of them when
 all other PDUs are left out of the history. *)
Theorem cdis_encoder_independence : forall g o l outs st s,
  encode_all g o l = Some (outs, st) ->
  exists st', encode_all g o (filter (about s) l) = Some (map snd (filter (fun e => about s (fst e)) (combine l outs)), st').
Proof. exact cdis_encoder_independence_pf. Qed.
Print Assumptions cdis_encoder_independence.

(** C32. So does the decoder. *)
Theorem cdis_decoder_independence : forall m g o l outs st s,
  decode_all m g o l = Some (outs, st) ->
  exists st', decode_all m g o (filter (cabout s) l) = Some (map snd (filter (fun e => cabout s (fst e)) (combine l outs)), st').
Proof. exact cdis_decoder_independence_pf. Qed.
Print Assumptions cdis_decoder_independence.

(** C32. PDUs of the types without codec state translate the same in every state and leave it alone. *)
Theorem cdis_stateless_types : forall m g o now est1 est2 dst1 dst2 p c,
  (subject (pdu_body p) = None -> exists q, encode_step g o est1 (now, p) = Some (q, est1) /\ encode_step g o est2 (now, p) = Some (q, est2)) /\
  (csubject (cp_body c) = None -> forall q, decode_step m g o dst1 c = Some (q, dst1) <-> decode_step m g o dst2 c = Some (q, dst2)).
Proof. exact cdis_stateless_types_pf. Qed.
Print Assumptions cdis_stateless_types.

Example cdis_partial_update_example : forall g, exists cs st ds st',
  encode_all g new_partial_update ex_history = Some (cs, st) /\ decode_all Checked g new_partial_update cs = Some (ds, st') /\
  map (fun c => flagged_full (cp_body c)) cs = [true; true; true; false] /\
  map (fun d => match pdu_body d with BEntityState x => EntityState_force_id x | _ => -1 end) ds = [1; 2; 2; 2] /\
  length (filter (about (SuEntity (MkEntityId (MkSimulationAddress 1 2) 3))) ex_history) = 3%nat.
Proof. intros g. do 4 eexists. split; [vm_compute; reflexivity|]. split; [vm_compute; reflexivity|]. repeat split. Qed.

(** C31. The full claim fails for the marking. Entity 3 is sent in full with marking V1, in full with marking V3, then as a partial update: the receiver makes the
 last one V1 again. *)
Theorem cdis_partial_update_marking_refuted : forall g, exists cs st ds st',
  encode_all g new_partial_update ex_history = Some (cs, st) /\ decode_all Checked g new_partial_update cs = Some (ds, st') /\
  map (fun i => subject (pdu_body (snd i))) ex_history = map (fun n => Some (SuEntity (MkEntityId (MkSimulationAddress 1 2) n))) [3; 4; 3; 3] /\
  map (fun c => flagged_full (cp_body c)) cs = [true; true; true; false] /\
  markings (map snd ex_history) = [[86; 49]; [86; 50]; [86; 51]; [86; 52]] /\ markings ds = [[86; 49]; [86; 50]; [86; 51]; [86; 49]].
Proof. exact cdis_partial_update_marking_refuted_pf. Qed.
Print Assumptions cdis_partial_update_marking_refuted.

(** C31. It fails for IFF: the sender never sets the full update flag, so that a receiver in partial update mode keeps nothing and makes the system
 identification of every partial update 0. *)
Theorem cdis_partial_update_iff_refuted : forall g, exists l cs st ds st', let sys := MkSystemId 1 2 3 4 in
  encode_all g new_partial_update l = Some (cs, st) /\ decode_all Checked g new_partial_update cs = Some (ds, st') /\
  iff_systems (map snd l) = [sys; sys] /\ iff_systems ds = [sys; MkSystemId 0 0 0 0].
Proof. exact cdis_partial_update_iff_refuted_pf. Qed.
Print Assumptions cdis_partial_update_iff_refuted.

(** C31. It fails for the relative antenna location of a radio: (1, 2, 0) metres in the full update, (0, 0, 0) in every partial update that follows. *)
Theorem cdis_partial_update_relative_location_refuted : forall g, exists cs st ds st',
  encode_all g new_partial_update [(0, ex_dis (BTransmitter ex_dis_tx)); (second, ex_dis (BTransmitter ex_dis_tx))] = Some (cs, st) /\
  decode_all Checked g new_partial_update cs = Some (ds, st') /\
  map (fun d => match pdu_body d with BTransmitter x => Some (Transmitter_relative_antenna_location x) | _ => None end) ds =
    [Some (MkVectorF32 1065353216 1073741824 0); Some (MkVectorF32 0 0 0)].
Proof. exact cdis_partial_update_relative_location_refuted_pf. Qed.
Print Assumptions cdis_partial_update_relative_location_refuted.

(** C30. The full update flag of an IFF PDU is never set, not even on a full update: in every history, in every mode. *)
Theorem iff_full_update_flag_refuted : forall g o l outs st, encode_all g o l = Some (outs, st) ->
  Forall (fun c => forall x, cp_body c = CBIff x -> CIff_full x = false) outs.
Proof. exact iff_full_update_flag_refuted_pf. Qed.
Print Assumptions iff_full_update_flag_refuted.

(** * Specification vocabulary: received PDUs that can be sent on unchanged

    A relay parses PDUs and serializes them again. [relayable] lists, part by part, what a received PDU must not contain
    for the second parse to give the same PDU as the first. Each exclusion is a place where the writer and the parser of
    the library disagree (see the refutations beside the theorems). *)
From Coq Require Import ZArith List.
From Verif Require Import Base DisCommon DisLists DisHeader DisSimman DisLogistics DisWarfare DisEntity DisEmission DisRadio DisIff DisPdu DisPacket SpecSize.
Import ListNotations. Open Scope Z_scope.

(** records of at most 8191 octets (the length in bits has 16 bits) *)
Definition record_length_fits (r : RecordSet) : Prop := rs_length_bytes r < 8192.
(** an optional part, if it is there *)
Definition if_present {A} (P : A -> Prop) (o : option A) : Prop := match o with Some a => P a | None => True end.
Definition system_known (t : Z) : Prop := In t [1; 2; 3; 4; 5; 6; 7; 8; 9; 10; 11].   (* a transponder or an interrogator *)
Definition aircraft_id_fits (b : ModeSBasicData) : Prop := match b with
  | MSTransponder x => Forall (fun c => c < 128) (mst_id x) /\ zlen (mst_id x) <= 8
  | MSInterrogator _ => True end.
Definition iff_record_whole (r : IffDataRecord) : Prop := (6 + zlen (idr_fields r)) mod 4 = 0.

(** ** The conditions, one by one *)
Definition padding_clear (p : Pdu) : Prop := h_padding (pdu_header p) = 0.
Definition version_known (p : Pdu) : Prop := 1 <= h_version (pdu_header p) <= 7.
Definition size_bounded (p : Pdu) : Prop := size_pdu p <= 65500.
Definition record_lengths_fit (p : Pdu) : Prop := Forall record_length_fits (record_sets (pdu_body p)).
Definition datums_whole (p : Pdu) : Prop := Forall datum_whole (variable_datums (pdu_body p)).
Definition no_separations (p : Pdu) : Prop := Forall not_separation (variable_parameters (pdu_body p)).
Definition texts_fit (p : Pdu) : Prop := Forall text_fits (texts (pdu_body p)).
Definition capabilities_kept (p : Pdu) : Prop := match pdu_body p with
  | BEntityState x => h_version (pdu_header p) = 6 \/ h_version (pdu_header p) = 7 \/ ec_word (EntityState_capabilities x) = 0
  | _ => True end.
Definition no_explosion (p : Pdu) : Prop := match pdu_body p with
  | BDetonation x => match Detonation_descriptor x with DExplosion _ _ _ => False | _ => True end
  | _ => True end.
Definition signal_whole (p : Pdu) : Prop := match pdu_body p with BSignal x => zlen (Signal_data x) mod 4 = 0 | _ => True end.
Definition attributes_whole (p : Pdu) : Prop := match pdu_body p with
  | BAttribute x => Forall (fun s => Forall (fun r => (6 + zlen (ar_fields r)) mod 8 = 0) (as_records s)) (Attribute_sets x)
  | _ => True end.
Definition vtps_whole (p : Pdu) : Prop := match pdu_body p with
  | BTransmitter x => Forall (fun v => (6 + zlen (vtp_fields v)) mod 8 = 0) (Transmitter_vtps x)
  | _ => True end.
Definition apas_clear (p : Pdu) : Prop := match pdu_body p with
  | BUnderwaterAcoustic x => Forall (fun a => apa_parameter a = 0 /\ apa_status a = 0) (UA_apas x)
  | _ => True end.
Definition iff_system_known (p : Pdu) : Prop := match pdu_body p with
  | BIff x => Iff_layer_3 x <> None \/ Iff_layer_4 x <> None -> system_known (si_type (Iff_system_id x))
  | _ => True end.
Definition iff_records_whole (p : Pdu) : Prop := match pdu_body p with
  | BIff x => if_present (fun l => Forall iff_record_whole (l3_records l)) (Iff_layer_3 x) /\
      if_present (fun l => Forall iff_record_whole (l4_records l)) (Iff_layer_4 x) /\
      if_present (fun l => Forall iff_record_whole (l5_records l)) (Iff_layer_5 x)
  | _ => True end.
Definition aircraft_ids_fit (p : Pdu) : Prop := match pdu_body p with
  | BIff x => if_present (fun l => aircraft_id_fits (l4_basic l)) (Iff_layer_4 x)
  | _ => True end.

(** The first two are bounds that the wire format and this proof impose; each of the others is needed, see the refutation. *)
Definition size_conditions : list (Pdu -> Prop) := [size_bounded; record_lengths_fit].
Definition content_conditions : list (Pdu -> Prop) :=
  [padding_clear; version_known; datums_whole; no_separations; texts_fit; capabilities_kept; no_explosion; signal_whole;
   attributes_whole; vtps_whole; apas_clear; iff_system_known; iff_records_whole; aircraft_ids_fit].
Definition relayable (p : Pdu) : Prop := Forall (fun c => c p) (size_conditions ++ content_conditions).
(** Without condition [c] relaying fails: there is a packet whose PDUs meet every other condition and do not come back
    from serialization (or are not serialized at all), in debug and in release builds. *)
Definition relay_needs (c : Pdu -> Prop) : Prop := exists i ps, bytes i /\
  Forall (fun p => Forall (fun d => d = c \/ d p) (size_conditions ++ content_conditions)) ps /\
  forall m, parse m i = Parsed ps /\
    forall capacity bss, Forall2 (fun p bs => exists n, serialize m p [] capacity = (bs, Written n)) ps bss -> parse m (concat bss) <> Parsed ps.

(** * Properties: CdisPdu

    Theorems only: each is closed by the lemma of the same name in L_CdisPdu.v. *)
From Coq Require Import ZArith List Lia Bool String Ascii.
From Verif Require Import Base DisCommon DisLists DisSimman DisHeader DisPacket CdisBase CdisRecords CdisBodies1 CdisBodies2 CdisIff CdisPdu SpecCdis SpecCdisPdu L_CdisBits L_CdisPdu.
Import ListNotations. Open Scope Z_scope.

(** C26. A header whose fields fit the wire (2-bit version, 8-bit exercise and PDU type, 26-bit timestamp, 14-bit length, a status of the kind the PDU
   type has) is read back unchanged from any cursor, and the number of bits written is the length the header reports: 63 or 67. *)
Theorem cdis_header_roundtrip : forall h,
  0 <= ch_version h < 4 -> 0 <= ch_exercise h < 256 -> 0 <= ch_type h < 256 -> 0 <= ch_timestamp h < 67108864 -> 0 <= ch_length h < 16384 ->
  status_ok (ch_type h) (ch_status h) ->
  reads_back (w_cheader h) p_cheader h (len_cheader h) /\ writes_bits (w_cheader h) (len_cheader h) /\
  len_cheader h = (if ch_exercise h <? 16 then 63 else 67).
Proof. exact cdis_header_roundtrip_pf. Qed.
Print Assumptions cdis_header_roundtrip.

(** C26. For every header of the Rust types, whatever its values: the bits written are the reported length, and what is read back is the header with
   the version, timestamp and length reduced to the 2, 26 and 14 bits of their fields, and the status as the DIS status octet carries it. *)
Theorem cdis_header_any : forall h, wf_CHeader h ->
  reads_back (w_cheader h) p_cheader (MkCHeader (ch_version h mod 4) (ch_exercise h) (ch_type h) (ch_timestamp h mod 67108864) (ch_length h mod 16384)
    (parse_status (ch_type h) (write_status (ch_type h) (ch_status h)))) (len_cheader h).
Proof. exact cdis_header_any_pf. Qed.
Print Assumptions cdis_header_any.

(** C26. Hence no header that announces a PDU of 16384 bits (2048 octets) or more is read back as it was written. *)
Theorem cdis_long_header_refuted : forall h, wf_CHeader h -> 16384 <= ch_length h ->
  exists h', reads_back (w_cheader h) p_cheader h' (len_cheader h) /\ ch_length h' <> ch_length h.
Proof. exact cdis_long_header_refuted_pf. Qed.
Print Assumptions cdis_long_header_refuted.

Example cdis_header_example : status_ok 1 (ch_status (ex_cheader 1)) /\ len_cheader (ex_cheader 1) = 63.
Proof. split; [apply parse_status_ok; unfold u8; lia|reflexivity]. Qed.

(** C27. For every C-DIS body whose fields fit, at any cursor: the cursor advances by exactly the declared body length less [excess_cbody], a closed
   formula of five kinds of slips (counts of empty lists, the optional transmitter fields, the beam data, the emitter system numbers and beam
   indices, two constants). It is zero for ES, Fire, Detonation, Collision, Create/RemoveEntity, Start, Stop, Acknowledge, Designator, Receiver. *)
Theorem cdis_body_bits : forall m b, wfits_cbody b -> writes_bits (w_cbody m b) (len_cbody b - excess_cbody b).
Proof. exact cdis_body_bits_pf. Qed.
Print Assumptions cdis_body_bits.

(** C27. Whenever that excess is zero the declared length is exact. *)
Theorem cdis_body_bits_exact : forall m b, wfits_cbody b -> excess_cbody b = 0 -> writes_bits (w_cbody m b) (len_cbody b).
Proof. exact cdis_body_bits_exact_pf. Qed.
Print Assumptions cdis_body_bits_exact.

(** C27. In particular for these eleven PDU types and for every combination of their optional fields. *)
Theorem cdis_body_bits_exact_types : forall m b t, wfits_cbody b -> ctype_of b = Some t -> In t [1; 2; 3; 4; 11; 12; 13; 14; 15; 24; 27] ->
  writes_bits (w_cbody m b) (len_cbody b).
Proof. exact cdis_body_bits_exact_types_pf. Qed.
Print Assumptions cdis_body_bits_exact_types.

(** C27. The full claim fails: a Comment PDU with one fixed datum and no variable datum declares five bits more than it writes; so does every body with
   an empty datum list. *)
Theorem cdis_body_bits_refuted : exists b, wfits_cbody b /\ (forall m, ~ writes_bits (w_cbody m b) (len_cbody b)) /\ forall m, writes_bits (w_cbody m b) (len_cbody b - 5).
Proof. exact cdis_body_bits_refuted_pf. Qed.
Print Assumptions cdis_body_bits_refuted.

(** C27. No Signal PDU writes the length it declares (two bits too many), and no Emission PDU without beam data and systems (one bit too many). *)
Theorem cdis_signal_emission_bits_refuted : forall m,
  (forall x, fits_CSignal x -> writes_bits (w_csignal m x) (len_csignal x - 2)) /\
  (forall x, wfits_CEmission x -> CEmission_beams x = [] -> CEmission_systems x = [] -> writes_bits (w_cemission m x) (len_cemission x - 1)).
Proof. exact cdis_signal_emission_bits_refuted_pf. Qed.
Print Assumptions cdis_signal_emission_bits_refuted.

(** C27. The length of a finalized PDU is the header's and the body's declared length modulo 2^16, so for the types above and PDUs below 65536 bits
   the length field of the header is exactly the number of bits of the whole PDU. *)
Theorem cdis_finalized_length : forall m h b ts, 0 <= ch_exercise h < 256 -> 0 <= ch_version h < 4 -> 0 <= ch_type h < 256 -> 0 <= ch_timestamp h < 67108864 ->
  (forall t, ts = Some t -> 0 <= t < 67108864) -> status_ok (ch_type h) (ch_status h) ->
  wfits_cbody b -> excess_cbody b = 0 -> len_cheader h + len_cbody b < 16384 ->
  ch_length (cp_header (cfinalize h b ts)) = len_cheader h + len_cbody b /\
  writes_bits (w_cpdu m (cfinalize h b ts)) (ch_length (cp_header (cfinalize h b ts))).
Proof. exact cdis_finalized_length_pf. Qed.
Print Assumptions cdis_finalized_length.

(** C28. Every PDU that fits the wire is read back from any cursor as the same header and body, with every combination of the optional fields present or
   absent, except for the lossy parts that [blank_lossy] blanks out: latitude and longitude, the sweep and elevation of beam data, and the length
   in IFF layer headers. [fits_CPdu] leaves out emissions with emitter systems and transmitters without variable parameters; see the refutations. *)
Theorem cdis_pdu_roundtrip : forall m p, fits_CPdu p ->
  exists q, reads_back (w_cpdu m p) p_cpdu q (cpdu_length p - excess_cbody (cp_body p)) /\ same_but_lossy q p.
Proof. exact cdis_pdu_roundtrip_pf. Qed.
Print Assumptions cdis_pdu_roundtrip.

(** C28. When none of the lossy parts is there, the PDU itself is read back. *)
Theorem cdis_pdu_roundtrip_exact : forall m p, fits_CPdu p -> no_lossy_parts (cp_body p) ->
  reads_back (w_cpdu m p) p_cpdu p (cpdu_length p - excess_cbody (cp_body p)).
Proof. exact cdis_pdu_roundtrip_exact_pf. Qed.
Print Assumptions cdis_pdu_roundtrip_exact.

(** C28. A whole datagram: serializing any non-empty list of PDUs that fit, one after the other from the start of a buffer with room, yields the total
   number of bits; parsing the octets that hold these bits (the last one filled up) yields the same PDUs in the same order, up to the lossy parts. *)
Theorem cdis_packet_roundtrip : forall m ps buf, ps <> [] -> Forall fits_CPdu ps -> total_bits ps <= zlen buf ->
  exists buf' qs, serialize_all m ps buf 0 = Some (buf', total_bits ps) /\
    cparse (to_octets (firstn (Z.to_nat (total_bits ps)) buf')) = CParsed qs /\ Forall2 same_but_lossy qs ps.
Proof. exact cdis_packet_roundtrip_pf. Qed.
Print Assumptions cdis_packet_roundtrip.

(** C28. The reader never panics and always terminates with a list of PDUs or an error, whatever the octets; and it reports an error exactly when no PDU
   can be read at the start. *)
Theorem cdis_parse_total : forall i, cparse i <> CParsePanic /\
  (cparse i = CParseError <-> exists k, p_cpdu (to_bits i) = PErr k) /\
  (forall l, cparse i = CParsed l <-> l <> [] /\ exists rest, Split p_cpdu (to_bits i) l rest).
Proof. exact cdis_parse_total_pf. Qed.
Print Assumptions cdis_parse_total.

(** C28. The full claim fails for a Transmitter without variable transmitter parameters: the writer leaves their number out, the reader reads it anyway.
   Alone in
   a datagram this PDU is an error, and in front of another one it swallows that one's first bits. *)
Theorem cdis_transmitter_refuted : not_read_back (ex_pdu 25 (CBTransmitter ex_transmitter)).
Proof. exact cdis_transmitter_refuted_pf. Qed.
Print Assumptions cdis_transmitter_refuted.

(** C28. It fails for every kind of Emission PDU with an emitter system: the reader expects a system number that the writer never writes. *)
Theorem cdis_emission_refuted : not_read_back (ex_pdu 23 (CBEmission ex_emission)).
Proof. exact cdis_emission_refuted_pf. Qed.
Print Assumptions cdis_emission_refuted.

(** C28. It fails for every PDU with a position: latitude and longitude are written as they are and read back divided by about 17 and 9 (the scale
   factors are computed with exclusive or instead of a power). Here the latitude 1309918033 comes back as something else. *)
Theorem cdis_location_refuted : not_read_back (ex_pdu 1 (CBEntityState (ex_es (Some (MkCWorldCoordinates 1309918033 0 100))))).
Proof. exact cdis_location_refuted_pf. Qed.
Print Assumptions cdis_location_refuted.

Example cdis_pdu_example : fits_CPdu (ex_pdu 1 (CBEntityState (ex_es None))) /\ no_lossy_parts (CBEntityState (ex_es None)) /\
  cpdu_length (ex_pdu 1 (CBEntityState (ex_es None))) = 235.
Proof.
  split; [|split; reflexivity]. split; [fits_header|]. split; [reflexivity|]. apply ex_es_fits. discriminate.
Qed.

(** C29. For every body of a type with a fields-present word (14 of the 22), any field values: the first bits written are exactly the presence flags of
   [presence_flags], in the order of the standard's tables; a flag of a group of fields is set iff all of the group are present, a list's iff it is
   not empty. *)
Theorem cdis_presence_flags : forall m b bs u, w_cbody m b = WOk bs u -> firstn (length (presence_flags b)) bs = presence_flags b.
Proof. exact cdis_presence_flags_pf. Qed.
Print Assumptions cdis_presence_flags.

(** C29. The claim fails for the fields that share a flag: a warhead without a fuze is written although its flag is clear, so the reader takes its 16
   bits for the following fields. *)
Theorem cdis_lone_group_member_refuted : forall m, exists bs bs0 u,
  w_cbody m (CBFire (ex_fire (Some 7))) = WOk bs u /\ w_cbody m (CBFire (ex_fire None)) = WOk bs0 u /\
  firstn 4 bs = [false; false; false; false] /\ zlen bs = zlen bs0 + 16 /\
  forall rest, p_cbody 2 (bs ++ repeat false 100) <> POk rest (CBFire (ex_fire (Some 7))).
Proof. exact cdis_lone_group_member_refuted_pf. Qed.
Print Assumptions cdis_lone_group_member_refuted.

Example cdis_presence_example : presence_flags (CBEntityState (ex_es None)) =
  [true; false; true; false; true; false; false; true; false; false; false; true; false].
Proof. reflexivity. Qed.

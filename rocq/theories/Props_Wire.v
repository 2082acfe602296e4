(** * Properties: Wire

    Theorems only: each is closed by the lemma of the same name in L_Wire.v. *)
From Coq Require Import ZArith List Lia Bool String Ascii.
From Verif Require Import Base DisCommon DisLists DisSimman DisLogistics DisWarfare DisEntity DisEmission DisRadio DisIff DisHeader DisPdu DisPacket SpecWire L_Wire.
Import ListNotations. Open Scope Z_scope.

(** C04. Parsing a serialized header gives back the same header and consumes exactly its twelve octets,
whatever follows. *)
Theorem C04_header_round_trip : forall h, wf_PduHeader h -> fits_header h ->
  exists bs, w_header h = WOk bs 12 /\ zlen bs = 12 /\ forall rest, p_header (bs ++ rest) = POk rest h.
Proof. exact C04_header_round_trip_pf. Qed.
Print Assumptions C04_header_round_trip.

Example C04_header_example : wf_PduHeader (pdu_header sample_ack) /\ fits_header (pdu_header sample_ack).
Proof.
  split; [unfold wf_PduHeader, u8, u16, u32; cbn; lia|]. split; [reflexivity|]. cbn. eexists. split; [reflexivity|].
  intros []; cbn; lia.
Qed.

(** C04. The side condition is needed: a version other than 1..7 is parsed as if it carried a status octet,
but serialization writes zero there, so the status is lost. *)
Theorem C04_future_version_status_refuted : exists h h', wf_PduHeader h /\ h_padding h = 0 /\
  (exists s, h_status h = Some s /\ status_ok (h_type h) s) /\
  (exists bs, w_header h = WOk bs 12 /\ p_header bs = POk [] h') /\ h' <> h.
Proof. exact C04_future_version_status_refuted_pf. Qed.
Print Assumptions C04_future_version_status_refuted.

(** C05. Serializing a status that is well formed for a PDU type and parsing it returns the same indicators. *)
Theorem C05_status_write_parse : forall ty s, status_ok ty s ->
  0 <= write_status ty s < 256 /\ parse_status ty (write_status ty s) = s.
Proof. exact C05_status_write_parse_pf. Qed.
Print Assumptions C05_status_write_parse.

Example C05_status_example : status_ok 28 (build_aii_ism_cei_lvc_tei 1 0 1 2 1) /\
  write_status 28 (build_aii_ism_cei_lvc_tei 1 0 1 2 1) = 45.
Proof. split; [intros []; cbn; lia|reflexivity]. Qed.

(** C05. Parsing a status octet reads, for each indicator the PDU type carries, the bits the standard assigns
to it, and yields no other indicator. *)
Theorem C05_status_parse_value : forall ty b i, u8 ty -> u8 b ->
  ind_get i (parse_status ty b) =
    if carries ty i then Some ((b / 2 ^ ind_pos i) mod 2 ^ ind_width i) else None.
Proof. exact C05_status_parse_value_pf. Qed.
Print Assumptions C05_status_parse_value.

(** C05. Parsing then serializing a status octet keeps exactly the bits used by the PDU type. *)
Theorem C05_status_parse_write : forall ty b k, u8 ty -> u8 b -> 0 <= k < 8 ->
  Z.testbit (write_status ty (parse_status ty b)) k = used_bit ty k && Z.testbit b k.
Proof. exact C05_status_parse_write_pf. Qed.
Print Assumptions C05_status_parse_write.

(** C06. Refutation for each of the remaining implemented types: some PDU of that type, which parses back from
the octets written, is written with a size different from the one returned or advertised. *)
Theorem C06_serialize_exact_refuted : forall ty, In ty [1; 2; 3; 4; 5; 6; 7; 8; 25; 28; 33; 34; 35; 36; 63] ->
  exists p bs returned advertised, body_type (pdu_body p) = ty /\
    serialize Checked p [] 2000 = (bs, Written returned) /\ pdu_length Checked p = WOk [] advertised /\
    parse Checked bs = Parsed [p] /\ (returned <> zlen bs \/ advertised <> zlen bs).
Proof. exact C06_serialize_exact_refuted_pf. Qed.
Print Assumptions C06_serialize_exact_refuted.

(** C07. [serialize] reports an insufficient buffer exactly when the PDU length exceeds the capacity, names both
numbers, and then leaves the buffer as it was. *)
Theorem C07_insufficient_buffer : forall m p buf cap n, pdu_length m p = WOk [] n ->
  (cap < n -> serialize m p buf cap = (buf, InsufficientBufferSize n cap)) /\
  (n <= cap -> forall a b, snd (serialize m p buf cap) <> InsufficientBufferSize a b).
Proof. exact C07_insufficient_buffer_pf. Qed.
Print Assumptions C07_insufficient_buffer.

Example C07_insufficient_example : pdu_length Checked sample_ack = WOk [] 32 /\
  serialize Checked sample_ack [1; 2] 31 = ([1; 2], InsufficientBufferSize 32 31).
Proof. split; vm_compute; reflexivity. Qed.

(** C07. Refutation of the claim for the true length: a Fire PDU takes 96 octets but is accepted by a buffer of
capacity 40 (the buffer silently grows), and a Collision PDU of 60 octets is rejected by a buffer of
capacity 60. *)
Theorem C07_insufficient_true_length_refuted :
  (exists p bs n, wf_Pdu p /\ serialize Checked p [] 40 = (bs, Written n) /\ zlen bs = 96) /\
  (exists p bs n, wf_Pdu p /\ serialize Checked p [] 60 = ([], InsufficientBufferSize 72 60) /\
                  serialize Checked p [] 72 = (bs, Written n) /\ zlen bs = 60).
Proof. exact C07_insufficient_true_length_refuted_pf. Qed.
Print Assumptions C07_insufficient_true_length_refuted.

(** C08. A finalized PDU carries the given body; its header has the type of the body, the protocol family of that
type, the given time stamp and the length 12 + body length; version, exercise, status and padding are
those of the given header. *)
Theorem C08_finalize : forall m h b ts p, wf_body b -> finalize m h b ts = WOk [] p ->
  pdu_body p = b /\ h_type (pdu_header p) = body_type b /\ belongs_to_family (body_type b) (h_family (pdu_header p)) /\
  h_time (pdu_header p) = ts /\
  (exists n, body_length m b = WOk [] n /\ h_length (pdu_header p) = (12 + n) mod 65536 /\
             pdu_length m p = WOk [] (h_length (pdu_header p)) /\ (m = Checked -> 12 + n < 65536)) /\
  h_version (pdu_header p) = h_version h /\ h_exercise (pdu_header p) = h_exercise h /\
  h_status (pdu_header p) = h_status h /\ h_padding (pdu_header p) = h_padding h.
Proof. exact C08_finalize_pf. Qed.
Print Assumptions C08_finalize.

(** C08. The family is determined by the table. *)
Theorem C08_family_unique : forall ty f f', belongs_to_family ty f -> belongs_to_family ty f' -> f = f'.
Proof. exact C08_family_unique_pf. Qed.
Print Assumptions C08_family_unique.

Example C08_finalize_example : exists p, finalize Checked (header_new 7 3 0) (pdu_body sample_ack) 42 = WOk [] p /\
  h_length (pdu_header p) = 32 /\ h_type (pdu_header p) = 15 /\ h_family (pdu_header p) = 5 /\ h_exercise (pdu_header p) = 3.
Proof. eexists. split; [vm_compute; reflexivity|]. repeat split. Qed.

(** C09. Parsing the octets of a serialized PDU returns exactly that PDU. *)
Theorem C09_parse_serialize : forall m p cap bs n,
  wf_Pdu p -> fits_Pdu p -> size_pdu p <= 65500 ->
  serialize m p [] cap = (bs, Written n) -> parse m bs = Parsed [p].
Proof. exact C09_parse_serialize_pf. Qed.
Print Assumptions C09_parse_serialize.

(** C09. The same for a PDU built with [finalize_from_parts], from a well-formed header and body. *)
Theorem C09_parse_serialize_finalized : forall m h b ts p cap bs n,
  wf_PduHeader h -> wf_body b -> u32 ts -> finalize m h b ts = WOk [] p ->
  fits_Pdu p -> size_pdu p <= 65500 -> serialize m p [] cap = (bs, Written n) -> parse m bs = Parsed [p].
Proof. exact C09_parse_serialize_finalized_pf. Qed.
Print Assumptions C09_parse_serialize_finalized.

Example C09_example : wf_Pdu sample_ack /\ fits_Pdu sample_ack /\ size_pdu sample_ack <= 65500 /\
  finalize Checked (MkPduHeader 7 1 0 0 0 0 (Some (build_cei_lvc 0 1)) 0) (pdu_body sample_ack) 1000 = WOk [] sample_ack /\
  exists bs, serialize Checked sample_ack [] 32 = (bs, Written 32) /\ parse Checked bs = Parsed [sample_ack].
Proof.
  destruct sample_ack_ok as (H1 & H2 & H3). split; [exact H1|]. split; [exact H2|]. split; [exact H3|].
  split; [vm_compute; reflexivity|]. eexists. split; [vm_compute; reflexivity|vm_compute; reflexivity].
Qed.

(** C09. Refutation of the claim without the side conditions: well-typed finalized PDUs, of an R-family action
response, of an entity with a separation record, of an explosion and of an
unimplemented type, are serialized but parsed to something else. *)
Theorem C09_parse_serialize_refuted : forall p,
  In p [bad_action_response_r; bad_separation; bad_explosion; bad_other] ->
  exists bs n r, serialize Checked p [] 2000 = (bs, Written n) /\ h_length (pdu_header p) <= 2000 /\
    parse Checked bs = r /\ r <> Parsed [p].
Proof. exact C09_parse_serialize_refuted_pf. Qed.
Print Assumptions C09_parse_serialize_refuted.

(** C10. A buffer that is the concatenation of serialized PDUs, followed by anything that does not start a PDU
(for instance nothing), parses to exactly those PDUs in order. *)
Theorem C10_parse_packet : forall m l bss junk, l <> [] ->
  Forall2 (fun p bs => wf_Pdu p /\ fits_Pdu p /\ size_pdu p <= 65500 /\ exists cap n, serialize m p [] cap = (bs, Written n)) l bss ->
  parse m junk = ParseError -> parse m (concat bss ++ junk) = Parsed l.
Proof. exact C10_parse_packet_pf. Qed.
Print Assumptions C10_parse_packet.

Example C10_example : parse Checked (wire Checked sample_ack ++ wire Checked sample_collision ++ []) = Parsed [sample_ack; sample_collision]
  /\ parse Checked [] = ParseError.
Proof. split; vm_compute; reflexivity. Qed.

(** C10. Refutation without the side conditions: a Signal PDU whose data is not a multiple of four octets corrupts the
PDU that follows it in the packet, because its padding is not skipped. *)
Theorem C10_parse_packet_refuted : exists p q b1 n1 b2 n2,
  serialize Checked p [] 2000 = (b1, Written n1) /\ serialize Checked q [] 2000 = (b2, Written n2) /\
  parse Checked b1 = Parsed [p] /\ parse Checked b2 = Parsed [q] /\ parse Checked (b1 ++ b2) <> Parsed [p; q].
Proof. exact C10_parse_packet_refuted_pf. Qed.
Print Assumptions C10_parse_packet_refuted.

(** C11. The version-specific entry points fail exactly as [parse] does, and otherwise return its result without
the PDUs of other versions. *)
Theorem C11_version_filter : forall m i,
  (parse m i = ParseError <-> parse_v6 m i = ParseError) /\ (parse m i = ParseError <-> parse_v7 m i = ParseError) /\
  (forall k, parse_v6 m i = Parsed k -> exists l, parse m i = Parsed l /\ Keep 6 l k) /\
  (forall k, parse_v7 m i = Parsed k -> exists l, parse m i = Parsed l /\ Keep 7 l k) /\
  (forall l, parse m i = Parsed l -> exists k6 k7, parse_v6 m i = Parsed k6 /\ parse_v7 m i = Parsed k7).
Proof. exact C11_version_filter_pf. Qed.
Print Assumptions C11_version_filter.

Example C11_example : parse_v6 Checked (wire Checked sample_ack ++ wire Checked sample_collision) = Parsed [sample_collision] /\
  parse_v7 Checked (wire Checked sample_ack ++ wire Checked sample_collision) = Parsed [sample_ack].
Proof. split; vm_compute; reflexivity. Qed.

(** C12. In a build without overflow checks, parsing any octets ends with a result or an error, with one exception, described exactly: it panics if and
only if, after some PDUs have been read, the rest of the octets starts with a Signal PDU of encoding class 2 or 3 that announces less data than
the 4 or 12 octets the class calls for. *)
Theorem C12_parse_panics_iff : forall i, bytes i ->
  (parse Wrapping i = ParsePanic <-> exists l rest, Reads (p_pdu Wrapping) i l rest /\ short_signal rest).
Proof. exact C12_parse_panics_iff_pf. Qed.
Print Assumptions C12_parse_panics_iff.

(** C12. In a build with overflow checks such a Signal makes [parse] panic too. *)
Theorem C12_signal_panics_everywhere : forall m i l rest, bytes i -> Reads (p_pdu m) i l rest -> short_signal rest -> parse m i = ParsePanic.
Proof. exact C12_signal_panics_everywhere_pf. Qed.
Print Assumptions C12_signal_panics_everywhere.

Example C12_example : forall body, bytes body -> zlen body = 20 ->
  parse Wrapping ([7; 1; 15; 5; 0; 0; 0; 0; 0; 32; 0; 0] ++ body) <> ParsePanic.
Proof.
  intros body Hb Hl H. apply parse_panic_iff in H.
  do 20 (destruct body as [|? body]; [discriminate|]). destruct body; [|exfalso; revert Hl; clear; unfold zlen; cbn [length]; lia].
  inversion H as [i H1|i r a H1 H2]; subst; [discriminate|].
  vm_compute in H1. inversion H1; subst. inversion H2; subst; discriminate.
Qed.

(** C12. Refutation: these 33 octets, a Signal PDU of class 2 announcing 8 bits of data, make [parse] panic in every
build mode. *)
Theorem C12_parse_no_panic_refuted : forall m, exists i, bytes i /\ zlen i = 33 /\ parse m i = ParsePanic.
Proof. exact C12_parse_no_panic_refuted_pf. Qed.
Print Assumptions C12_parse_no_panic_refuted.

(** C12. In a build with overflow checks more octet strings panic; for instance a Transmitter PDU whose variable
parameter record announces a length below its own header. *)
Theorem C12_parse_overflow_panic_refuted : exists i, bytes i /\ parse Checked i = ParsePanic /\ parse Wrapping i <> ParsePanic.
Proof. exact C12_parse_overflow_panic_refuted_pf. Qed.
Print Assumptions C12_parse_overflow_panic_refuted.

(** C12. In any build mode, a panic requires that, after some PDUs have been read, the rest of the octets starts with a PDU of one of six types: Transmitter, Signal,
AggregateState, TransferOwnership, Record-R or SetRecord-R. *)
Theorem C12_parse_panic_types : forall m i, bytes i -> parse m i = ParsePanic ->
  exists l rest, Reads (p_pdu m) i l rest /\ In (nth 2 rest 0) [25; 26; 33; 35; 63; 64].
Proof. exact C12_parse_panic_types_pf. Qed.
Print Assumptions C12_parse_panic_types.

(** C13. [parse] fails exactly when the first PDU cannot be parsed, that is when there are fewer than twelve octets
or the body parser selected by the first header rejects what follows the header. *)
Theorem C13_parse_error_iff : forall m i, parse m i = ParseError <->
  zlen i < 12 \/ exists h k, p_header i = POk (skipn 12 i) h /\ p_body m h (skipn 12 i) = PErr k.
Proof. exact C13_parse_error_iff_pf. Qed.
Print Assumptions C13_parse_error_iff.

Example C13_error_example : parse Checked [7; 1; 15] = ParseError /\ parse Checked (sample_packet 15 (zeros 19)) = ParseError /\
  parse Checked (sample_packet 15 (zeros 20)) <> ParseError.
Proof. split; [|split]; vm_compute; (reflexivity || discriminate). Qed.

(** C13. On success the result is the non-empty, longest run of PDUs: [Split] reads one PDU after the other and
stops where no further PDU can be parsed. *)
Theorem C13_parse_longest_run : forall m i l, parse m i = Parsed l <-> l <> [] /\ exists rest, Split (p_pdu m) i l rest.
Proof. exact C13_parse_longest_run_pf. Qed.
Print Assumptions C13_parse_longest_run.

Example C13_run_example : parse Checked (wire Checked sample_ack ++ wire Checked sample_collision ++ [7; 1]) = Parsed [sample_ack; sample_collision].
Proof. vm_compute. reflexivity. Qed.

(** C14. If a PDU is parsed from an input leaving a rest, the rest is a suffix of the input, and after appending any
octets the same PDU is parsed and the rest has those octets appended. *)
Theorem C14_trailing_octets : forall m i r p, p_pdu m i = POk r p ->
  (exists used, i = used ++ r) /\ forall x, p_pdu m (i ++ x) = POk (r ++ x) p.
Proof. exact C14_trailing_octets_pf. Qed.
Print Assumptions C14_trailing_octets.

(** C14. Packet level: if an input is a whole number of PDUs, appending another parseable input yields the
concatenation of both results. *)
Theorem C14_parse_append : forall m i l x l',
  Split (p_pdu m) i l [] -> parse m i = Parsed l -> parse m x = Parsed l' -> parse m (i ++ x) = Parsed (l ++ l').
Proof. exact C14_parse_append_pf. Qed.
Print Assumptions C14_parse_append.

Example C14_append_example : Split (p_pdu Checked) (wire Checked sample_ack) [sample_ack] [].
Proof. econstructor; [vm_compute; reflexivity|]. econstructor. reflexivity. Qed.

(** C15. For the types the library does not implement, a parsed PDU occupies exactly the octets the length field
announces (twelve if it announces fewer). *)
Theorem C15_framing_other : forall m i r p, p_pdu m i = POk r p -> other_type (h_type (pdu_header p)) ->
  zlen i - zlen r = Z.max 12 (h_length (pdu_header p)).
Proof. exact C15_framing_other_pf. Qed.
Print Assumptions C15_framing_other.

(** C15. A PDU of a type in [exact_types] whose header was finalized by the library is framed by its length field:
parsing its octets, whatever follows them, consumes exactly as many octets as the field announces. *)
Theorem C15_framing_exact : forall m h b ts p rest, wf_PduHeader h -> wf_body b -> u32 ts ->
  finalize m h b ts = WOk [] p -> fits_Pdu p -> size_pdu p <= 65500 -> In (body_type b) exact_types ->
  exists bs, w_pdu m p = WOk bs (zlen bs) /\ zlen bs = h_length (pdu_header p) /\ p_pdu m (bs ++ rest) = POk rest p.
Proof. exact C15_framing_exact_pf. Qed.
Print Assumptions C15_framing_exact.

(** C15. In general the claim is false: for every implemented type the octets consumed do not depend on the length
field at all: changing the field changes nothing but the field. *)
Theorem C15_length_field_ignored : forall m h n i, In (h_type h) implemented_types ->
  p_body m (with_length_field h n) i = p_body m h i.
Proof. exact C15_length_field_ignored_pf. Qed.
Print Assumptions C15_length_field_ignored.

(** C15. Refutation: an Acknowledge PDU announcing 40 octets is parsed from 32, and the eight octets left over are
taken for the start of the next PDU. *)
Theorem C15_framing_refuted : exists i p r, bytes i /\ p_pdu Checked i = POk r p /\ zlen i - zlen r <> h_length (pdu_header p) /\
  h_length (pdu_header p) = zlen i.
Proof. exact C15_framing_refuted_pf. Qed.
Print Assumptions C15_framing_refuted.

(** C38. For every input that parses, [originator] is the entity identifier found at the offset the standard assigns
to the originating entity of that PDU type, and [receiver] the one at the offset of the receiving entity
([endpoints]); both are [None] for the types without such an entity, including every type the crate does
not implement.  (23, Electromagnetic Emission, is the one type whose receiver is not at a fixed offset: next theorem.) *)
Theorem C38_endpoints : forall m l r p, p_pdu m l = POk r p ->
  originator p = (if h_type (pdu_header p) =? 23 then Some (entity_at l 12) else id_at l (fst (endpoints (h_type (pdu_header p))))) /\
  (h_type (pdu_header p) <> 23 -> receiver p = id_at l (snd (endpoints (h_type (pdu_header p))))).
Proof. exact C38_endpoints_pf. Qed.
Print Assumptions C38_endpoints.

(** C38. Electromagnetic Emission: the receiver is the first track/jam target of the first beam of the first emitter
system, when there is one. *)
Theorem C38_emission_receiver : forall m l r p, p_pdu m l = POk r p -> h_type (pdu_header p) = 23 ->
  exists x, pdu_body p = BElectromagneticEmission x /\
  receiver p = (match EE_systems x with
                | MkEmitterSystem _ _ _ _ (MkBeam _ _ _ _ _ _ _ _ (t :: _) :: _) :: _ => Some (tj_entity t)
                | _ => None end).
Proof. exact C38_emission_receiver_pf. Qed.
Print Assumptions C38_emission_receiver.

Example C38_ex : exists p r, p_pdu Checked (sample_packet 15 (zeros 20) ++ [1; 2; 3]) = POk r p /\ originator p <> None /\ receiver p <> None.
Proof. do 2 eexists. split; [vm_compute; reflexivity|]. split; vm_compute; discriminate. Qed.

(** C40. [parse_header], exactly, on every octet sequence: fewer than twelve octets are reported as an insufficient
header with their number; a body cut short is reported with the octets the length field announces for
it and the octets there are; otherwise the header is returned. *)
Theorem C40_parse_header : forall i, bytes i ->
  (zlen i < 12 -> parse_header i = HInsufficientHeader (zlen i)) /\
  (12 <= zlen i < u16_at i 8 -> parse_header i = HInsufficientPdu (u16_at i 8 - 12) (zlen i - 12)) /\
  (Z.max 12 (u16_at i 8) <= zlen i -> exists h r, parse_header i = HParsed h /\ p_header i = POk r h).
Proof. exact C40_parse_header_pf. Qed.
Print Assumptions C40_parse_header.

(** C40. The header returned by [parse_header] is the one full parsing gives the PDU. *)
Theorem C40_agrees_with_full_parsing : forall m i h p, parse_header i = HParsed h -> parse_pdu m i = Parsed p -> pdu_header p = h.
Proof. exact C40_agrees_with_full_parsing_pf. Qed.
Print Assumptions C40_agrees_with_full_parsing.

(** C40. [parse_multiple_header] walks a datagram by the length fields alone: whatever the bodies contain, octet
sequences that each have the length their header announces are each reported once, in order, and trailing octets that
do not hold a complete PDU are ignored. *)
Theorem C40_parse_multiple_header : forall cs hs junk, cs <> [] -> (forall h, parse_header junk <> HParsed h) ->
  Forall2 (fun c h => u16_at c 8 = zlen c /\ parse_header c = HParsed h) cs hs ->
  parse_multiple_header (concat cs ++ junk) = HParsed hs.
Proof. exact C40_parse_multiple_header_pf. Qed.
Print Assumptions C40_parse_multiple_header.

(** C40. For packets built with this crate: the headers of well-formed PDUs of the types whose advertised length is
right are reported for the concatenation of their serialisations. *)
Theorem C40_headers_of_packet : forall m l, l <> [] ->
  Forall (fun p => wf_Pdu p /\ fits_Pdu p /\ size_pdu p <= 65500 /\ h_length (pdu_header p) = size_pdu p) l ->
  parse_multiple_header (packet m l) = HParsed (map pdu_header l).
Proof. exact C40_headers_of_packet_pf. Qed.
Print Assumptions C40_headers_of_packet.

(** C40. Refutation of the error report of [parse_multiple_header]: a complete header whose body is cut short is reported as an
insufficient header length. *)
Theorem C40_multiple_header_error_refuted : exists i, bytes i /\ 12 <= zlen i /\ parse_header i = HInsufficientPdu 20 8 /\
  parse_multiple_header i = HInsufficientHeader 20.
Proof. exact C40_multiple_header_error_refuted_pf. Qed.
Print Assumptions C40_multiple_header_error_refuted.

Example C40_ex : parse_multiple_header (sample_packet 15 (zeros 20) ++ sample_packet 99 [1; 2; 3] ++ [7; 7]) =
  HParsed [pdu_header (sample_pdu 15 (zeros 20)); pdu_header (sample_pdu 99 [1; 2; 3])].
Proof. vm_compute. reflexivity. Qed.

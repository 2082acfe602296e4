(** * Properties: Defaults

    Theorems only: each is closed by the lemma of the same name in L_Defaults.v. *)
From Coq Require Import ZArith List Lia Bool String Ascii.
From Verif Require Import Base DisCommon IffWords DisHeader DisLists DisSimman DisLogistics DisWarfare DisEntity DisEmission DisRadio DisIff DisPdu DisPacket SpecSize SpecRelay Parsed ParsedBodies L_Length L_Wire L_Relay Defaults L_Defaults.
Import ListNotations. Open Scope Z_scope.

(** C58. Every PDU type has a builder, and what an untouched builder builds - with a header made for any version from 1 to 7, exercise and type, and no status - is finalized, written and read back with the same body, version, exercise and time stamp, whatever the arithmetic. Excepted: Action Response-R, which the reader takes for an Action Response. The capabilities in an entity state are all zero in the form the reader of that version gives them; the repository does not determine the form of the builder (its table is not included). *)
Theorem untouched_builders_read_back : forall m v ex ts cap b,
  In b (default_bodies (if v =? 7 then MkCapabilities AUnspecified 0 else MkCapabilities ALand 0)) -> b <> BActionResponseR default_ActionResponseR ->
  1 <= v <= 7 -> u8 ex -> u32 ts -> 1100 <= cap ->
  exists p bs n q, finalize m (header_new v ex (body_type b)) b ts = WOk [] p /\ serialize m p [] cap = (bs, Written n) /\ zlen bs = 12 + size_body b /\
    parse m bs = Parsed [q] /\ pdu_body q = b /\ h_version (pdu_header q) = v /\ h_exercise (pdu_header q) = ex /\ h_type (pdu_header q) = body_type b /\ h_time (pdu_header q) = ts.
Proof. exact untouched_builders_read_back_pf. Qed.
Print Assumptions untouched_builders_read_back.

(** C58. There is one such default for every PDU type that the library reads into a body of its own, and for no other type. *)
Theorem defaults_for_every_type : forall caps ty, (exists b, In b (default_bodies caps) /\ body_type b = ty) <-> In ty implemented_types.
Proof. exact defaults_for_every_type_pf. Qed.
Print Assumptions defaults_for_every_type.

(** C58. The exception: an untouched Action Response-R builder comes back as an Action Response. *)
Theorem untouched_action_response_r_refuted : exists p bs q, finalize Checked (header_new 7 1 57) (BActionResponseR default_ActionResponseR) 1000 = WOk [] p /\
  serialize Checked p [] 1100 = (bs, Written 40) /\ parse Checked bs = Parsed [q] /\ pdu_body q = BActionResponse default_ActionResponse.
Proof. exact untouched_action_response_r_refuted_pf. Qed.
Print Assumptions untouched_action_response_r_refuted.

(** C58. The default of every member is nothing: an untouched builder writes zeros only after the header, but for the word Marking in the ASCII character set in an entity state, and the blanks that fill markings. *)
Theorem untouched_builders_write_zeros : forall m v ex ts cap b p bs n,
  In b (default_bodies (if v =? 7 then MkCapabilities AUnspecified 0 else MkCapabilities ALand 0)) -> 1 <= v <= 7 ->
  finalize m (header_new v ex (body_type b)) b ts = WOk [] p -> serialize m p [] cap = (bs, Written n) ->
  exists header, zlen header = 12 /\ bs = header ++
    if body_type b =? 1 then repeat 0 116 ++ [1; 77; 97; 114; 107; 105; 110; 103; 32; 32; 32; 32] ++ repeat 0 4
    else if body_type b =? 33 then repeat 0 21 ++ repeat 32 31 ++ repeat 0 72
    else repeat 0 (Z.to_nat (size_body b)).
Proof. exact untouched_builders_write_zeros_pf. Qed.
Print Assumptions untouched_builders_write_zeros.

Example untouched_builders_example : length (default_bodies (MkCapabilities AUnspecified 0)) = 52%nat /\ In (BTransmitter default_Transmitter) (default_bodies (MkCapabilities AUnspecified 0)) /\
  exists p bs, finalize Checked (header_new 7 1 26) (BSignal default_Signal) 1000 = WOk [] p /\ serialize Checked p [] 1100 = (bs, Written 32) /\
    bs = [7; 1; 26; 4; 0; 0; 3; 232; 0; 32; 0; 0] ++ repeat 0 20.
Proof.
  split; [reflexivity|]. split; [cbn [default_bodies In]; tauto|]. do 2 eexists. split; [reflexivity|]. split; vm_compute; reflexivity.
Qed.

(** C58. Which capabilities the untouched entity state builder must have to come back: in a version 7 PDU no octets are read as that entity state unless its capabilities are Unspecified and zero; in a version 6 PDU, unless they are those of a land platform. Should the default of the generated enumeration be another, the untouched entity state does not come back as it was. *)
Theorem untouched_entity_state_capabilities : forall m i ps q caps, bytes i -> parse m i = Parsed ps -> In q ps ->
  pdu_body q = BEntityState (default_EntityState caps) ->
  (h_version (pdu_header q) = 7 -> caps = MkCapabilities AUnspecified 0) /\ (h_version (pdu_header q) = 6 -> ec_kind caps = ALand).
Proof. exact untouched_entity_state_capabilities_pf. Qed.
Print Assumptions untouched_entity_state_capabilities.

Example untouched_entity_state_example : let octets := [7; 1; 1; 1; 0; 0; 3; 232; 0; 144; 0; 0] ++ repeat 0 116 ++ [1; 77; 97; 114; 107; 105; 110; 103; 32; 32; 32; 32] ++ [0; 0; 0; 9] in
  bytes octets /\ parse Checked octets = Parsed [MkPdu (MkPduHeader 7 1 1 1 1000 144 (Some (parse_status 1 0)) 0) (BEntityState (default_EntityState (MkCapabilities AUnspecified 0)))].
Proof. split; [cbn; repeat constructor; vm_compute; discriminate|vm_compute; reflexivity]. Qed.

(** * Properties: Length

    Theorems only: each is closed by the lemma of the same name in L_Length.v. *)
From Coq Require Import ZArith List Lia Bool String Ascii.
From Verif Require Import Base DisCommon DisHeader DisLists DisSimman DisLogistics DisWarfare DisEntity DisEmission DisRadio DisIff DisPdu DisPacket SpecWire SpecSize L_Size L_Wire L_Length.
Import ListNotations. Open Scope Z_scope.

(** C06. Complete accounting, for every PDU of at most 65500 octets whose datums, record sets, articulated parts and texts are
[sized] (whether or not it can be read back): [serialize] leaves the octets already in the buffer alone, appends exactly
the size of the PDU as laid out on the wire, and returns that size plus the listed excess; [pdu_length] is that size
plus the listed excess, less the padding after attribute records. *)
Theorem C06_serialize_accounting : forall m p buf cap,
  wf_Pdu p -> sized (pdu_body p) -> size_pdu p <= 65500 ->
  size_pdu p + claimed_excess (pdu_body p) - attribute_padding (pdu_body p) <= cap ->
  exists bs, serialize m p buf cap = (buf ++ bs, Written (size_pdu p + returned_excess (pdu_body p))) /\
             zlen bs = size_pdu p /\ pdu_length m p = WOk [] (size_pdu p + claimed_excess (pdu_body p) - attribute_padding (pdu_body p)).
Proof. exact C06_serialize_accounting_pf. Qed.
Print Assumptions C06_serialize_accounting.

(** C06. For the PDU types of [exact_types] (Attribute PDUs only when none of their records is padded), serialization appends
exactly [pdu_length] octets and returns that number.  For the others see the accounting above and the refutation below. *)
Theorem C06_serialize_exact_types : forall m p buf cap n,
  wf_Pdu p -> sized (pdu_body p) -> size_pdu p <= 65500 -> In (body_type (pdu_body p)) exact_types -> attribute_padding (pdu_body p) = 0 ->
  pdu_length m p = WOk [] n -> n <= cap ->
  exists bs, serialize m p buf cap = (buf ++ bs, Written n) /\ zlen bs = n.
Proof. exact C06_serialize_exact_types_pf. Qed.
Print Assumptions C06_serialize_exact_types.

(** C06. The PDUs that survive a round trip are among the PDUs these theorems are about. *)
Theorem C06_fitting_pdus_are_sized : forall p, wf_Pdu p -> fits_Pdu p -> sized (pdu_body p).
Proof. exact C06_fitting_pdus_are_sized_pf. Qed.
Print Assumptions C06_fitting_pdus_are_sized.

Example C06_exact_example : wf_Pdu sample_response /\ sized (pdu_body sample_response) /\ size_pdu sample_response <= 65500 /\
  In (body_type (pdu_body sample_response)) exact_types /\
  exists bs, serialize Checked sample_response [0xAA] 100 = (0xAA :: bs, Written 64) /\ zlen bs = 64.
Proof.
  split; [|split; [|split; [|split]]].
  - unfold wf_Pdu. cbn. unfold wf_PduHeader, wf_ActionResponseR, wf_EntityId, wf_SimulationAddress, wf_FixedDatum, wf_VariableDatum, bytes, u8, u16, u32. cbn.
    repeat split; try lia; repeat constructor; cbn; lia.
  - unfold sized. cbn. repeat split; repeat constructor; cbn; lia || reflexivity.
  - vm_compute. discriminate.
  - vm_compute. tauto.
  - eexists. split; vm_compute; reflexivity.
Qed.

(** C06. Refutation for Attribute PDUs with padded records: the padding is written, and counted by the size returned, but not
by [pdu_length]. *)
Theorem C06_attribute_padding_refuted : exists p bs, wf_Pdu p /\ sized (pdu_body p) /\ body_type (pdu_body p) = 72 /\
  pdu_length Checked p = WOk [] 54 /\ serialize Checked p [] 54 = (bs, Written 56) /\ zlen bs = 56.
Proof. exact C06_attribute_padding_refuted_pf. Qed.
Print Assumptions C06_attribute_padding_refuted.

(** C07. For the types of [exact_types] the advertised length is the true one, so a PDU that needs more octets than the capacity
is always rejected and one that needs at most the capacity never is. *)
Theorem C07_insufficient_true_length : forall m p buf cap,
  wf_Pdu p -> sized (pdu_body p) -> size_pdu p <= 65500 -> In (body_type (pdu_body p)) exact_types -> attribute_padding (pdu_body p) = 0 ->
  (cap < size_pdu p <-> snd (serialize m p buf cap) = InsufficientBufferSize (size_pdu p) cap) /\
  (size_pdu p <= cap -> zlen (fst (serialize m p buf cap)) = zlen buf + size_pdu p).
Proof. exact C07_insufficient_true_length_pf. Qed.
Print Assumptions C07_insufficient_true_length.

(** * Properties: CrossIff

    Theorems only: each is closed by the lemma of the same name in L_CrossIff.v. *)
From Coq Require Import ZArith List Lia Bool String Ascii SpecFloat Reals Lra.
From Verif Require Import Base CdisBase DisCommon DisHeader DisLists DisSimman DisLogistics DisWarfare DisEntity DisEmission DisRadio DisIff DisPdu DisPacket
  CdisRecords CdisBodies1 CdisBodies2 CdisIff CdisPdu CdisCodec1 CdisCodec2 CdisCodec3 SpecFloatValue SpecContent SpecBody SpecCross SpecCrossIff SpecCdisPdu SpecCodec SpecGateway
  Utf8 L_Codec L_CodecNum L_CodecPrec L_CodecContent L_CodecSim L_Gateway CrossFits CrossIff L_Cross L_CrossIff.
Import ListNotations. Open Scope Z_scope.

(** C52. An IFF PDU that C-DIS has room for is always encoded; and when the update is full, or the PDU has neither layer 3 nor layer 4, its bits are read back, whatever follows them,
 as one C-DIS PDU, and a decoder (in release mode), whatever it has seen before, makes a DIS PDU of that. *)
Theorem cdis_iff_delivers : forall m g oe od now est dst p x, narrow_iff_pdu p x ->
  exists c r est', encode g oe now est p = Some (c, r, est') /\
    (full_update (cp_body c) \/ no_basic_data x -> exists q p' r' dst', on_the_wire m c q /\ decode Wrapping g od dst q = WOk [] (p', r', dst')).
Proof. exact cdis_iff_delivers_pf. Qed.
Print Assumptions cdis_iff_delivers.

(** C52. ... and what arrives of it: everything the codec alone would have, except that the four angles of the beam of layer 2 are all the azimuth centre. *)
Theorem cdis_iff_crosses : forall m g oe od p c p' x, narrow_iff_pdu p x -> crosses m g oe od p c p' -> full_update (cp_body c) \/ no_basic_data x ->
  h_exercise (pdu_header p') = h_exercise (pdu_header p) /\ h_type (pdu_header p') = h_type (pdu_header p) /\
  exists y, pdu_body p' = BIff y /\ iff_crossed x y /\ (full_update (cp_body c) -> Iff_system_id y = Iff_system_id x).
Proof. exact cdis_iff_crosses_pf. Qed.
Print Assumptions cdis_iff_crosses.

(** C52. A partial update does not carry the basic data of the layers 3 and 4: it leaves out the system type, without which the reader takes neither an interrogator nor a transponder
 from the wire; whatever arrives of such a PDU, its basic data is that of a transponder, all zero. *)
Theorem cdis_iff_partial_crosses_refuted : forall m g oe od p c p' x, u8 (h_exercise (pdu_header p)) -> h_type (pdu_header p) = 28 -> pdu_body p = BIff x ->
  crosses m g oe od p c p' -> partial_update (cp_body c) ->
  exists y, pdu_body p' = BIff y /\ (forall l, Iff_layer_3 y = Some l -> l3_basic l = M5Transponder (MkM5T 0 0 0 0 0 0 0 0)) /\
    (forall l, Iff_layer_4 y = Some l -> l4_basic l = MSTransponder (MkMST 0 0 0 [] 0 0 0 0 0)).
Proof. exact cdis_iff_partial_crosses_refuted_pf. Qed.
Print Assumptions cdis_iff_partial_crosses_refuted.

Example cdis_iff_crosses_example : Forall (fun x => narrow_iff_pdu (on_its_way (BIff x)) x /\
  exists c p', crosses Wrapping plain_geo new_full_update new_partial_update (on_its_way (BIff x)) c p' /\ full_update (cp_body c)) [iff_interrogator; iff_transponder].
Proof. exact iff_examples. Qed.

(** C52. In fact such PDUs are not read at all: those of the two examples above, sent a second time in partial update mode, a second later. *)
Theorem cdis_iff_partial_lost : forall x, In x [iff_interrogator; iff_transponder] ->
  exists c, sent_again (on_its_way (BIff x)) = Some c /\ forall m, ~ exists q, on_the_wire m c q.
Proof. exact cdis_iff_partial_lost_pf. Qed.
Print Assumptions cdis_iff_partial_lost.

(** * Properties: CrossEe

    Theorems only: each is closed by the lemma of the same name in L_CrossEe.v. *)
From Coq Require Import ZArith List Lia Bool String Ascii SpecFloat Reals Lra.
From Verif Require Import Base CdisBase DisCommon DisHeader DisLists DisSimman DisLogistics DisWarfare DisEntity DisEmission DisRadio DisIff DisPdu DisPacket
  CdisRecords CdisBodies1 CdisBodies2 CdisIff CdisPdu CdisCodec1 CdisCodec2 CdisCodec3 SpecFloatValue SpecContent SpecBody SpecCross SpecCrossIff SpecCrossEe SpecCdisPdu SpecCodec SpecGateway
  Utf8 L_Codec L_CodecNum L_CodecPrec L_CodecContent L_CodecSim L_Gateway CrossFits CrossIff L_Cross L_CrossEe.
Import ListNotations. Open Scope Z_scope.

(** C52. An Electromagnetic Emission without emitter systems is never lost, in any update, and arrives as it was. *)
Theorem cdis_emission_crosses : forall m g oe od now est dst p x, quiet_emission p x ->
  exists c r est' q p' r' dst', encode g oe now est p = Some (c, r, est') /\ on_the_wire m c q /\ decode Wrapping g od dst q = WOk [] (p', r', dst') /\
    h_exercise (pdu_header p') = h_exercise (pdu_header p) /\ h_type (pdu_header p') = h_type (pdu_header p) /\ pdu_body p' = pdu_body p.
Proof. exact cdis_emission_crosses_pf. Qed.
Print Assumptions cdis_emission_crosses.

Example cdis_emission_crosses_example : quiet_emission (on_its_way (BElectromagneticEmission (MkEE sent_id (MkEventId (MkSimulationAddress 1 2) 9) 1 []))) (MkEE sent_id (MkEventId (MkSimulationAddress 1 2) 9) 1 []).
Proof. exact quiet_example_pf. Qed.

(** C52. An emitter system does not arrive: its number is not written, although the reader reads one. Two emissions with differently numbered systems, encoded in full by the same encoder,
 give the same bits, so no receiver can tell them apart. *)
Theorem cdis_emission_numbers_refuted : forall m g oe now est p p1 x x1 c c1 r r1 est' est1, renumbered x x1 -> pdu_body p = BElectromagneticEmission x -> p1 = MkPdu (pdu_header p) (BElectromagneticEmission x1) ->
  encode g oe now est p = Some (c, r, est') -> encode g oe now est p1 = Some (c1, r1, est1) -> full_update (cp_body c) -> w_cpdu m c1 = w_cpdu m c.
Proof. exact cdis_emission_numbers_refuted_pf. Qed.
Print Assumptions cdis_emission_numbers_refuted.

Example cdis_emission_numbers_example : renumbered (an_emission 3) (an_emission 8) /\
  exists c r st c1 r1 st1, encode plain_geo new_full_update 0 enc_state_new (emission_sent 3) = Some (c, r, st) /\ full_update (cp_body c) /\
    encode plain_geo new_full_update 0 enc_state_new (emission_sent 8) = Some (c1, r1, st1) /\ c <> c1.
Proof. exact renumbered_pf. Qed.

(** * Properties: GeodesyCodec

    Theorems only: each is closed by the lemma of the same name in L_GeodesyCodec.v. *)
From Coq Require Import ZArith List Lia Bool String Ascii SpecFloat Reals Lra.
From Verif Require Import Base CdisBase DisCommon DisHeader DisLists DisSimman DisLogistics DisWarfare DisEntity DisEmission DisRadio DisIff DisPdu DisPacket
  CdisRecords CdisBodies1 CdisBodies2 CdisIff CdisPdu CdisCodec1 CdisCodec2 CdisCodec3 SpecFloatValue SpecContent SpecCodec SpecBody Geodesy SpecGeodesy SpecPlace
  FloatReal FloatBits FloatBits64 L_CodecNum L_CodecContent GeodesyLemmas GeodesyEst GeodesyStep GeodesyInv L_Geodesy L_GeodesyCodec.
Import ListNotations. Open Scope Z_scope.

(** C57. Through the C-DIS encoder and decoder, when the double-precision conversions compute the functions above to a millimetre and a billionth of a radian, a place near the surface (every place from 36 km below to 51 km above it) arrives within 10 metres of where it was: in Fire and Detonation PDUs, and in full updates of Entity State, Designator and Transmitter PDUs. *)
Theorem cdis_place_in_metres : forall m g oe od p c p' l, computes g -> translated m g oe od p c p' -> wf_body (pdu_body p) ->
  full_update (cp_body c) \/ (exists x, pdu_body p = BFire x) \/ (exists x, pdu_body p = BDetonation x) ->
  reported (pdu_body p) = Some l -> numbers l -> around_the_surface l ->
  exists l', reported (pdu_body p') = Some l' /\ (distance (place l') (place l) <= 10)%R.
Proof. exact cdis_place_in_metres_pf. Qed.
Print Assumptions cdis_place_in_metres.

(** There are double-precision conversions that meet the assumption, and the place 6,378,137 metres out on the first axis meets the others. *)
Example computes_example : computes precise /\ let l := MkLocation 4708606483430899712 0 0 in numbers l /\ around_the_surface l.
Proof. exact computes_precise. Qed.

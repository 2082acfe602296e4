(** * Properties: CodecTime

    Theorems only: each is closed by the lemma of the same name in L_CodecTime.v. *)
From Coq Require Import ZArith List Lia Bool String Ascii SpecFloat Reals Lra.
From Verif Require Import Base CdisBase DisCommon DisHeader DisLists DisSimman DisLogistics DisWarfare DisEntity DisEmission DisRadio DisIff DisPdu DisPacket
  CdisRecords CdisBodies1 CdisBodies2 CdisIff CdisPdu CdisCodec1 CdisCodec2 CdisCodec3 SpecFloatValue SpecContent FloatReal FloatBits L_CodecNum L_CodecSim L_CodecTime.
Import ListNotations. Open Scope Z_scope.

(** C42. What time stamp arrives, exactly enough to see both what works and what does not: the time arrives modulo 60.58 seconds (14/13 * 2^26 = 72271084 raw units of an hour / 2^32), to
   within 1.3 ms. Up to 72271000, that is in the first 60 seconds of the hour, nothing is taken off and the time is right to within 46 raw units (0.04 ms); from 72271200 on a
   whole number of such periods is always missing. *)
Theorem cdis_timestamp_trip : forall g o now est p c r est' m dst q p' r' dst', u32 (h_time (pdu_header p)) -> encode g o now est p = Some (c, r, est') ->
  ch_timestamp (cp_header q) = ch_timestamp (cp_header c) mod 2 ^ 26 -> decode m g o dst q = WOk [] (p', r', dst') ->
  let sent := h_time (pdu_header p) in let got := h_time (pdu_header p') in
  exists k, 0 <= k < 60 /\ Z.abs (13 * (got - sent) + k * (14 * 2 ^ 26)) <= 13 * 1500 /\
    (sent <= 72271000 -> k = 0 /\ Z.abs (got - sent) <= 46) /\ (72271200 <= sent -> 1 <= k).
Proof. exact cdis_timestamp_trip_pf. Qed.
Print Assumptions cdis_timestamp_trip.

Example cdis_timestamp_trip_example : cdis_to_dis_ts (dis_to_cdis_ts 1193046 mod 2 ^ 26) = 1193046 /\ 1193046 <= 72271000.
Proof. split; [vm_compute; reflexivity|lia]. Qed.

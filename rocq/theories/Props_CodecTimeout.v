(** * Properties: CodecTimeout

    Theorems only: each is closed by the lemma of the same name in L_CodecTimeout.v. *)
From Coq Require Import ZArith List Lia Bool String Ascii SpecFloat Reals Lra.
From Verif Require Import Base CdisBase DisCommon DisHeader DisLists DisSimman DisLogistics DisWarfare DisEntity DisEmission DisRadio DisIff DisPdu DisPacket
  CdisRecords CdisBodies1 CdisBodies2 CdisIff CdisPdu CdisCodec1 CdisCodec2 CdisCodec3 SpecFloatValue SpecContent SpecCodec FloatReal FloatBits L_CodecNum L_Codec L_CodecTimeout.
Import ListNotations. Open Scope Z_scope.

(** C30. The timeout in real numbers, over every history of the codec in partial update mode: a stateful PDU whose subject last had a full update [now - t]
 nanoseconds ago is sent as a full update when more than the limit (heartbeat parameter times multiplier, in seconds) has passed, and as a partial
 update when less has, up to one part in a million and a nanosecond of f32 rounding. For all finite parameters whose product is below 10^20. *)
Theorem cdis_full_update_timing : forall g o l outs st,
  encode_all g o l = Some (outs, st) -> o_partial o = true ->
  forall h1 now p c h2 s t q, combine l outs = h1 ++ (now, p, c) :: h2 -> subject (pdu_body p) = Some s -> last_sent_full s h1 t q ->
  (0 <= now - t < 2 ^ 63 * 1000000000)%Z ->
  let hbt := heartbeat_parameter (o_hbt o) (pdu_body p) in
  f32_finite hbt -> f32_finite (o_mplier o) ->
  let limit := (f32_value hbt * f32_value (o_mplier o))%R in let elapsed := (IZR (now - t) / 1000000000)%R in
  (Rabs limit <= 100000000000000000000)%R ->
  ((limit + Rabs limit / 1000000 + / 1000000000 < elapsed)%R -> full_update (cp_body c)) /\
  ((elapsed < limit - Rabs limit / 1000000 - / 1000000000)%R -> partial_update (cp_body c)).
Proof. exact cdis_full_update_timing_pf. Qed.
Print Assumptions cdis_full_update_timing.

Example timeout_defaults : f32_value f32_5 = 5%R /\ f32_value f32_10 = 10%R /\ f32_value f32_2 = 2%R /\ (Rabs (f32_value f32_2_4 - 2.4) < / 10000000)%R /\
  Forall (fun h => f32_finite h) [f32_5; f32_10; f32_2; f32_2_4].
Proof. exact timeout_defaults_hold. Qed.

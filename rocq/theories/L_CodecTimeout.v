(** * The heartbeat timeout of the C-DIS codec in real numbers (lemmas) *)
From Coq Require Import ZArith List Lia Bool SpecFloat Reals Lra Psatz.
From Flocq Require Import Core BinarySingleNaN.
From Verif Require Import Base CdisBase DisCommon DisHeader DisLists DisSimman DisLogistics DisWarfare DisEntity DisEmission DisRadio DisIff DisPdu DisPacket
  CdisRecords CdisBodies1 CdisBodies2 CdisIff CdisPdu CdisCodec1 CdisCodec2 CdisCodec3 SpecFloatValue SpecContent SpecCodec FloatReal FloatBits L_CodecNum L_Codec.
Import ListNotations. Open Scope R_scope.

Definition ns : R := / 1000000000.
Lemma second_exact : ok24 (fz second) /\ val (fz second) = 1000000000.
Proof.
  split; [split; vm_compute; reflexivity|]. change (fz second) with (S754_finite false 15625000 6). unfold SF2R, F2R. cbn [Fnum Fexp cond_Zopp bpow].
  change (Z.pow_pos radix2 6) with 64%Z. lra.
Qed.
Lemma secs_near d : (0 <= d < 2 ^ 63 * 1000000000)%Z ->
  ok24 (as_secs_f32 d) /\ Rabs (val (as_secs_f32 d) - IZR d * ns) <= IZR d * ns * (4 * ulp24) + 4 * tiny.
Proof.
  intros [D1 D2]. pose proof (Z.div_mod d second ltac:(discriminate)) as DM. pose proof (Z.mod_pos_bound d second ltac:(reflexivity)) as [M1 M2].
  unfold as_secs_f32. set (s := (d / second)%Z) in *. set (n := (d mod second)%Z) in *.
  assert (S1 : (0 <= s)%Z) by (apply Z.div_pos; [exact D1|reflexivity]). assert (S2 : (s < 2 ^ 63)%Z) by (unfold second in *; change (2 ^ 63)%Z with 9223372036854775808%Z in *; lia).
  change (2 ^ 63)%Z with 9223372036854775808%Z in *. change second with 1000000000%Z in DM, M2.
  apply (f_equal IZR) in DM. rewrite plus_IZR, mult_IZR in DM. apply IZR_le in S1, M1. apply IZR_lt in S2, M2.
  destruct (int_near s) as [O1 V1]. { rewrite Rabs_pos_eq by exact S1. unfold huge. lra. }
  destruct (int_near n) as [O2 V2]. { rewrite Rabs_pos_eq by exact M1. unfold huge. lra. }
  rewrite (Rabs_pos_eq (IZR s)) in V1 by exact S1. rewrite (Rabs_pos_eq (IZR n)) in V2 by exact M1. destruct second_exact as [O3 V3].
  fold (fz s) in O1, V1. fold (fz n) in O2, V2. pose proof tiny_pos as TP.
  apply Rabs_le_inv in V1, V2. unfold ulp24 in V1, V2. assert (TB : tiny < ns) by (unfold tiny, ns; lra).
  destruct (div_near (fz n) (fz second) O2 O3) as [O4 V4]; [rewrite V3; lra| |].
  { rewrite V3. apply Rabs_le. unfold huge, ns in *. lra. }
  rewrite V3 in V4. set (a := val (fz n) / 1000000000) in *.
  assert (A : - tiny <= a <= 2) by (unfold a, ns in *; lra).
  assert (V4' : Rabs (val (sfdiv (fz n) (fz second)) - a) <= (a + 2 * tiny) * ulp24 + tiny).
  { eapply Rle_trans; [exact V4|]. unfold ulp24. assert (Rabs a <= a + 2 * tiny) by (apply Rabs_le; lra). lra. }
  apply Rabs_le_inv in V4'. unfold ulp24 in V4'.
  destruct (add_near (fz s) (sfdiv (fz n) (fz second)) O1 O4) as [O5 V5].
  { apply Rabs_le. unfold huge, ns in *. lra. }
  split; [exact O5|]. set (b := val (fz s) + val (sfdiv (fz n) (fz second))) in *.
  assert (B : Rabs b <= b + 8 * tiny) by (apply Rabs_le; unfold b; lra).
  assert (V5' : Rabs (val (sfadd (fz s) (sfdiv (fz n) (fz second))) - b) <= (b + 8 * tiny) * ulp24 + tiny).
  { eapply Rle_trans; [exact V5|]. unfold ulp24. lra. }
  apply Rabs_le_inv in V5'. unfold ulp24 in *. apply Rabs_le. unfold b, a, ns in *. lra.
Qed.
Lemma timed_out_real o hbt now t :
  f32_finite hbt -> f32_finite (o_mplier o) -> Rabs (f32_value hbt * f32_value (o_mplier o)) <= 100000000000000000000 -> (0 <= now - t < 2 ^ 63 * 1000000000)%Z ->
  let limit := f32_value hbt * f32_value (o_mplier o) in let elapsed := IZR (now - t) * ns in
  (limit + Rabs limit / 1000000 + ns < elapsed -> timed_out o hbt now t = true) /\
  (elapsed < limit - Rabs limit / 1000000 - ns -> timed_out o hbt now t = false).
Proof.
  intros F1 F2 L D limit elapsed. destruct (of_bits_fin _ F1) as [O1 V1], (of_bits_fin _ F2) as [O2 V2].
  destruct (mul_near _ _ O1 O2) as [O3 V3]. { rewrite V1, V2. unfold huge. lra. }
  rewrite V1, V2 in V3. fold limit in V3, L. destruct (secs_near _ D) as [O4 V4]. fold elapsed in V4.
  unfold timed_out. rewrite (Z.max_r 0 (now - t)) by lia. rewrite (ltb_R 24 128 _ _ O3 O4).
  assert (E : 0 <= elapsed). { unfold elapsed, ns. destruct D as [D _]. apply IZR_le in D. lra. }
  apply Rabs_le_inv in V3, V4. pose proof tiny_pos as TP. assert (TB : tiny < ns / 1000) by (unfold tiny, ns; lra). unfold ulp24 in *.
  pose proof (Rabs_pos limit) as LP. set (v := SF2R radix2 (sfmul (sf_of_bits hbt) (sf_of_bits (o_mplier o)))) in *. set (w := SF2R radix2 (as_secs_f32 (now - t))) in *.
  assert (LA : - Rabs limit <= limit <= Rabs limit) by (clear; unfold Rabs; destruct Rcase_abs; lra).
  split; intros H.
  - apply Rlt_bool_true. assert (limit * (4 * / 16777216) <= Rabs limit * (4 * / 16777216)) by lra. unfold Rdiv in *. nra.
  - apply Rlt_bool_false. unfold Rdiv in *. nra.
Qed.

(*@C30
 The timeout in real numbers, over every history of the codec in partial update mode: a stateful PDU whose subject last had a full update [now - t]
 nanoseconds ago is sent as a full update when more than the limit (heartbeat parameter times multiplier, in seconds) has passed, and as a partial
 update when less has, up to one part in a million and a nanosecond of f32 rounding. For all finite parameters whose product is below 10^20. *)
Lemma cdis_full_update_timing_pf : forall g o l outs st,
  encode_all g o l = Some (outs, st) -> o_partial o = true ->
  forall h1 now p c h2 s t q, combine l outs = h1 ++ (now, p, c) :: h2 -> subject (pdu_body p) = Some s -> last_sent_full s h1 t q ->
  (0 <= now - t < 2 ^ 63 * 1000000000)%Z ->
  let hbt := heartbeat_parameter (o_hbt o) (pdu_body p) in
  f32_finite hbt -> f32_finite (o_mplier o) ->
  let limit := (f32_value hbt * f32_value (o_mplier o))%R in let elapsed := (IZR (now - t) / 1000000000)%R in
  (Rabs limit <= 100000000000000000000)%R ->
  ((limit + Rabs limit / 1000000 + / 1000000000 < elapsed)%R -> full_update (cp_body c)) /\
  ((elapsed < limit - Rabs limit / 1000000 - / 1000000000)%R -> partial_update (cp_body c)).
Proof.
  intros g o l outs st Hr Hp h1 now p c h2 s t q Hc Hs Hl D hbt F1 F2 limit elapsed L.
  destruct (cdis_full_update_discipline_pf g o l outs st Hr h1 now p c h2 s Hc Hs) as (A & _ & B).
  destruct (timed_out_real o hbt now t F1 F2 L D) as [T1 T2]. fold limit in T1, T2. unfold ns in *. fold (IZR (now - t) / 1000000000) in T1, T2. fold elapsed in T1, T2.
  split; intros H.
  - apply B. right; right. exists t, q. split; [exact Hl|exact (T1 H)].
  - destruct A as [A|A]; [|exact A]. exfalso. apply B in A. destruct A as [A|[A|(t' & q' & Hl' & A)]].
    + congruence.
    + exact (never_not_last _ _ _ _ A Hl).
    + destruct (last_full_unique _ _ _ _ _ _ Hl Hl') as [-> _]. fold hbt in A. rewrite (T2 H) in A. discriminate.
Qed.
Lemma timeout_defaults_hold : f32_value f32_5 = 5%R /\ f32_value f32_10 = 10%R /\ f32_value f32_2 = 2%R /\ (Rabs (f32_value f32_2_4 - 2.4) < / 10000000)%R /\
  Forall (fun h => f32_finite h) [f32_5; f32_10; f32_2; f32_2_4].
Proof.
  assert (Q : Forall (fun h => f32_finite h) [f32_5; f32_10; f32_2; f32_2_4]) by (repeat constructor; vm_compute; discriminate).
  inversion Q as [|? ? A Q1]; subst. inversion Q1 as [|? ? B Q2]; subst. inversion Q2 as [|? ? C Q3]; subst. inversion Q3 as [|? ? D _]; subst.
  destruct (of_bits_fin _ A) as [_ <-], (of_bits_fin _ B) as [_ <-], (of_bits_fin _ C) as [_ <-], (of_bits_fin _ D) as [_ <-].
  change (sf_of_bits f32_5) with (S754_finite false 10485760 (-21)). change (sf_of_bits f32_10) with (S754_finite false 10485760 (-20)).
  change (sf_of_bits f32_2) with (S754_finite false 8388608 (-22)). change (sf_of_bits f32_2_4) with (S754_finite false 10066330 (-22)).
  unfold SF2R, F2R. cbn [Fnum Fexp cond_Zopp bpow].
  change (Z.pow_pos radix2 21) with 2097152%Z. change (Z.pow_pos radix2 20) with 1048576%Z. change (Z.pow_pos radix2 22) with 4194304%Z.
  repeat split; try lra. apply Rabs_lt. lra. exact Q.
Qed.
(*@ex*)
Example timeout_defaults : f32_value f32_5 = 5%R /\ f32_value f32_10 = 10%R /\ f32_value f32_2 = 2%R /\ (Rabs (f32_value f32_2_4 - 2.4) < / 10000000)%R /\
  Forall (fun h => f32_finite h) [f32_5; f32_10; f32_2; f32_2_4].
Proof. exact timeout_defaults_hold. Qed.

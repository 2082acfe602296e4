(** * Time stamps through the C-DIS codec (lemmas and properties) *)
From Coq Require Import ZArith List Lia Bool SpecFloat Reals Lra Psatz.
From Flocq Require Import Core BinarySingleNaN.
From Verif Require Import Base CdisBase DisCommon DisHeader DisLists DisSimman DisLogistics DisWarfare DisEntity DisEmission DisRadio DisIff DisPdu DisPacket
  CdisRecords CdisBodies1 CdisBodies2 CdisIff CdisPdu CdisCodec1 CdisCodec2 CdisCodec3 SpecFloatValue SpecContent FloatReal FloatBits L_CodecNum L_CodecSim.
Import ListNotations. Open Scope R_scope.

Lemma down_ok : ok24 (sfdiv (fz CDIS_TIME_UNITS_PER_HOUR) (fz DIS_TIME_UNITS_PER_HOUR)) /\
  13 / 14 - / 10000000 <= val (sfdiv (fz CDIS_TIME_UNITS_PER_HOUR) (fz DIS_TIME_UNITS_PER_HOUR)) <= 13 / 14 + / 10000000.
Proof. scale. Qed.
Lemma up_ok : ok24 (sfdiv (fz DIS_TIME_UNITS_PER_HOUR) (fz CDIS_TIME_UNITS_PER_HOUR)) /\
  14 / 13 - / 10000000 <= val (sfdiv (fz DIS_TIME_UNITS_PER_HOUR) (fz CDIS_TIME_UNITS_PER_HOUR)) <= 14 / 13 + / 10000000.
Proof. scale. Qed.
Lemma scaled_units c r u : ok24 c -> r - / 10000000 <= val c <= r + / 10000000 -> 9 / 10 <= r <= 11 / 10 -> (0 <= u < 2 ^ 31)%Z ->
  let s := sf_round_cast 0 (2 ^ 32 - 1) (sfmul (fz u) c) in (0 <= s)%Z /\ Rabs (IZR s - IZR u * r) <= / 2 + IZR u * (3 / 10000000) + / 1000.
Proof.
  intros C V Q U. cbv zeta.
  assert (U' : 0 <= IZR u <= 2147483648) by (split; apply IZR_le; lia).
  assert (Hh : Rabs (IZR u) <= huge) by (rewrite Rabs_right by lra; unfold huge; lra).
  destruct (int_near u Hh) as [F N]. rewrite (Rabs_right (IZR u)) in N by lra.
  set (a := val (sf_of_int u)) in *. assert (A : Rabs (a - IZR u) <= IZR u * / 16000000 + / 1000000) by (unfold ulp24, tiny in N; lra).
  assert (A' : -1 <= a <= 2147483800). { revert A. unfold Rabs. destruct Rcase_abs; intros; lra. }
  assert (P : Rabs (a * val c) <= 2400000000).
  { rewrite Rabs_mult. apply Rle_trans with (2147483800 * (11 / 10 + / 10000000)); [|lra]. apply Rmult_le_compat; try apply Rabs_pos; unfold Rabs; destruct Rcase_abs; lra. }
  destruct (mul_near (fz u) c F C) as [G M]. { change (val (fz u)) with a. unfold huge. lra. }
  change (val (fz u)) with a in M.
  destruct round_converts as [CV _]. destruct (CV 0%Z (2 ^ 32 - 1)%Z _ ltac:(lia) G) as (t & -> & T).
  assert (E1 : Rabs (a * val c - IZR u * r) <= IZR u * (18 / 100000000) + / 100000).
  { replace (a * val c - IZR u * r) with ((a - IZR u) * val c + IZR u * (val c - r)) by ring. eapply Rle_trans; [apply Rabs_triang|]. rewrite !Rabs_mult.
    assert (Rabs (val c - r) <= / 10000000) by (unfold Rabs; destruct Rcase_abs; lra).
    assert (Rabs (val c) <= 11 / 10 + / 10000000) by (unfold Rabs; destruct Rcase_abs; lra).
    rewrite (Rabs_right (IZR u)) by lra.
    assert (Rabs (a - IZR u) * Rabs (val c) <= (IZR u * / 16000000 + / 1000000) * (11 / 10 + / 10000000)) by (apply Rmult_le_compat; try apply Rabs_pos; assumption).
    assert (IZR u * Rabs (val c - r) <= IZR u * / 10000000) by (apply Rmult_le_compat_l; lra). lra. }
  assert (E2 : Rabs (a * val c) <= IZR u * (11 / 10) + IZR u * (18 / 100000000) + / 100000).
  { replace (a * val c) with (IZR u * r + (a * val c - IZR u * r)) by ring. eapply Rle_trans; [apply Rabs_triang|]. rewrite (Rabs_right (IZR u * r)) by (apply Rle_ge, Rmult_le_pos; lra).
    assert (IZR u * r <= IZR u * (11 / 10)) by (apply Rmult_le_compat_l; lra). lra. }
  assert (E3 : Rabs (val (sfmul (fz u) c) - IZR u * r) <= IZR u * (28 / 100000000) + / 10000).
  { replace (val (sfmul (fz u) c) - IZR u * r) with ((val (sfmul (fz u) c) - a * val c) + (a * val c - IZR u * r)) by ring. eapply Rle_trans; [apply Rabs_triang|].
    unfold ulp24, tiny in M. lra. }
  assert (E4 : Rabs (IZR t - IZR u * r) <= / 2 + IZR u * (28 / 100000000) + / 10000).
  { replace (IZR t - IZR u * r) with (- (val (sfmul (fz u) c) - IZR t) + (val (sfmul (fz u) c) - IZR u * r)) by ring. eapply Rle_trans; [apply Rabs_triang|]. rewrite Rabs_Ropp. lra. }
  assert (Lo : 0 <= IZR u * r) by (apply Rmult_le_pos; lra). assert (Hi : IZR u * r <= 2147483648 * (11 / 10)) by (apply Rmult_le_compat; lra).
  assert (T1 : (-1 < t)%Z). { apply lt_IZR. assert (IZR u * r - (/ 2 + IZR u * (28 / 100000000) + / 10000) <= IZR t) by (revert E4; unfold Rabs; destruct Rcase_abs; intros; lra).
    assert (IZR u * (9/10) <= IZR u * r) by (apply Rmult_le_compat_l; lra). lra. }
  assert (T2 : (t < 2 ^ 32 - 1)%Z). { apply lt_IZR. change (2 ^ 32 - 1)%Z with 4294967295%Z. revert E4; unfold Rabs; destruct Rcase_abs; intros; lra. }
  rewrite Z.min_r, Z.max_r by lia. split; [lia|]. lra.
Qed.
Lemma raw_parts v : (0 <= v < 2 ^ 32)%Z -> (v = 2 * Z.shiftr v 1 + Z.land v 1 /\ 0 <= Z.shiftr v 1 < 2 ^ 31 /\ 0 <= Z.land v 1 <= 1)%Z.
Proof.
  intros H. rewrite Z.shiftr_div_pow2 by lia. change (2 ^ 1)%Z with 2%Z.
  assert (E : Z.land v 1 = (v mod 2)%Z) by exact (Z.land_ones v 1 ltac:(lia)). rewrite E.
  pose proof (Z.div_mod v 2 ltac:(lia)). pose proof (Z.mod_pos_bound v 2 ltac:(lia)). lia.
Qed.
Lemma lor_even a b : (0 <= a)%Z -> (0 <= b <= 1)%Z -> (Z.lor (2 * a) b = 2 * a + b)%Z.
Proof.
  intros P H. assert (b = 0 \/ b = 1)%Z as [-> | ->] by lia; [rewrite Z.lor_0_r; lia|]. destruct a as [|p|p]; [reflexivity|reflexivity|lia].
Qed.
Lemma times_le a b e : Rabs (IZR a - IZR b) <= e -> forall z, e <= IZR z -> (Z.abs (a - b) <= z)%Z.
Proof. intros H z Z. apply le_IZR. rewrite abs_IZR, minus_IZR. lra. Qed.
Lemma stamp_trip v : (0 <= v < 2 ^ 32)%Z -> let w := cdis_to_dis_ts (dis_to_cdis_ts v mod 2 ^ 26) in
  exists k, (0 <= k < 60 /\ Z.abs (13 * (w - v) + k * (14 * 2 ^ 26)) <= 13 * 1500 /\
    (v <= 72271000 -> k = 0 /\ Z.abs (w - v) <= 46) /\ (72271200 <= v -> 1 <= k))%Z.
Proof.
  intros H. cbv zeta. destruct (raw_parts v H) as (E & U & B). set (u := Z.shiftr v 1) in *. set (b := Z.land v 1) in *.
  destruct down_ok as [D1 D2]. destruct (scaled_units _ (13 / 14) u D1 D2 ltac:(lra) U) as [S0 S].
  unfold dis_to_cdis_ts, convert_raw. fold u b. change (scale_units CDIS_TIME_UNITS_PER_HOUR DIS_TIME_UNITS_PER_HOUR u)
    with (sf_round_cast 0 (2 ^ 32 - 1) (sfmul (fz u) (sfdiv (fz CDIS_TIME_UNITS_PER_HOUR) (fz DIS_TIME_UNITS_PER_HOUR)))).
  set (s := sf_round_cast _ _ _) in *.
  assert (U' : 0 <= IZR u <= 2147483647) by (split; apply IZR_le; lia).
  assert (Sb : (s < 2 ^ 31)%Z). { apply lt_IZR. change (2 ^ 31)%Z with 2147483648%Z. revert S. unfold Rabs. destruct Rcase_abs; intros; lra. }
  rewrite (Z.mul_comm s 2), (Z.mod_small (2 * s)) by lia. rewrite lor_even by (exact B || lia).
  assert (Cut : ((2 * s + b) mod 2 ^ 26 = 2 * (s mod 2 ^ 25) + b)%Z).
  { symmetry. apply Z.mod_unique with (q := (s / 2 ^ 25)%Z). left. pose proof (Z.mod_pos_bound s (2 ^ 25) ltac:(lia)). lia. pose proof (Z.div_mod s (2 ^ 25) ltac:(lia)). lia. }
  rewrite Cut. set (l := (s mod 2 ^ 25)%Z) in *. assert (L : (0 <= l < 2 ^ 25)%Z) by (apply Z.mod_pos_bound; lia).
  assert (K : (s = 2 ^ 25 * (s / 2 ^ 25) + l)%Z) by (apply Z.div_mod; lia). set (k := (s / 2 ^ 25)%Z) in *. clearbody k l. clear Cut.
  destruct (raw_parts (2 * l + b)%Z) as (E2 & U2 & B2); [lia|].
  unfold cdis_to_dis_ts, convert_raw. set (u2 := Z.shiftr (2 * l + b) 1) in *. set (b2 := Z.land (2 * l + b) 1) in *.
  assert (u2 = l /\ b2 = b)%Z as [X1 X2] by lia. clearbody u2 b2. subst u2 b2. clear E2 B2 U2.
  clearbody s. destruct up_ok as [D3 D4]. destruct (scaled_units _ (14 / 13) l D3 D4 ltac:(lra) ltac:(lia)) as [W0 W].
  change (scale_units DIS_TIME_UNITS_PER_HOUR CDIS_TIME_UNITS_PER_HOUR l) with (sf_round_cast 0 (2 ^ 32 - 1) (sfmul (fz l) (sfdiv (fz DIS_TIME_UNITS_PER_HOUR) (fz CDIS_TIME_UNITS_PER_HOUR)))).
  set (w := sf_round_cast _ _ _) in *. clearbody w.
  assert (L' : 0 <= IZR l <= 33554431) by (split; apply IZR_le; lia).
  assert (Wb : (w < 2 ^ 31)%Z). { apply lt_IZR. change (2 ^ 31)%Z with 2147483648%Z. revert W. unfold Rabs. destruct Rcase_abs; intros; lra. }
  rewrite (Z.mul_comm w 2), (Z.mod_small (2 * w)) by lia. rewrite lor_even by (exact B || lia).
  assert (Ks : IZR s = 33554432 * IZR k + IZR l) by (rewrite K, plus_IZR, mult_IZR; reflexivity).
  assert (Kp : (0 <= k < 64)%Z) by lia.
  assert (Main : Rabs (IZR w - (IZR u - IZR k * (33554432 * (14 / 13)))) <= / 2 + IZR l * (3 / 10000000) + / 1000 + 14 / 13 * (/ 2 + IZR u * (3 / 10000000) + / 1000)).
  { replace (IZR w - (IZR u - IZR k * (33554432 * (14 / 13)))) with ((IZR w - IZR l * (14 / 13)) + 14 / 13 * (IZR s - IZR u * (13 / 14))) by (rewrite Ks; field).
    eapply Rle_trans; [apply Rabs_triang|]. rewrite Rabs_mult, (Rabs_right (14 / 13)) by lra. apply Rplus_le_compat; [exact W|]. apply Rmult_le_compat_l; [lra|exact S]. }
  exists k. split; [|split; [|split]].
  - split; [lia|]. apply lt_IZR. revert S. rewrite Ks. unfold Rabs. destruct Rcase_abs; intros; lra.
  - rewrite E. replace (13 * (2 * w + b - (2 * u + b)) + k * (14 * 2 ^ 26))%Z with (26 * w + 14 * 67108864 * k - 26 * u)%Z by lia.
    apply le_IZR. rewrite abs_IZR, minus_IZR, plus_IZR, !mult_IZR.
    replace (26 * IZR w + 14 * 67108864 * IZR k - 26 * IZR u) with (26 * (IZR w - (IZR u - IZR k * (33554432 * (14 / 13))))) by field.
    rewrite Rabs_mult, (Rabs_right 26) by lra. lra.
  - intros V. assert (Uv : IZR u <= 36135500) by (apply IZR_le; lia).
    assert (k = 0%Z) as K0. { assert (k < 1)%Z; [|lia]. apply lt_IZR. revert S. rewrite Ks. unfold Rabs. destruct Rcase_abs; intros; lra. }
    split; [exact K0|]. rewrite K0, Rmult_0_l in Main. replace (2 * w + b - v)%Z with (2 * (w - u))%Z by lia.
    apply le_IZR. rewrite abs_IZR, mult_IZR, minus_IZR, Rabs_mult, (Rabs_right 2) by lra. replace (IZR w - (IZR u - 0)) with (IZR w - IZR u) in Main by ring. lra.
  - intros V. assert (Uv : 36135600 <= IZR u) by (apply IZR_le; lia). apply Z.nlt_ge. intros N. assert (k = 0)%Z by lia. subst k.
    revert S. rewrite Ks. unfold Rabs. destruct Rcase_abs; intros; lra.
Qed.
Open Scope Z_scope.
(*@C42
   What time stamp arrives, exactly enough to see both what works and what does not: the time arrives modulo 60.58 seconds (14/13 * 2^26 = 72271084 raw units of an hour / 2^32), to
   within 1.3 ms. Up to 72271000, that is in the first 60 seconds of the hour, nothing is taken off and the time is right to within 46 raw units (0.04 ms); from 72271200 on a
   whole number of such periods is always missing. *)
Lemma cdis_timestamp_trip_pf : forall g o now est p c r est' m dst q p' r' dst', u32 (h_time (pdu_header p)) -> encode g o now est p = Some (c, r, est') ->
  ch_timestamp (cp_header q) = ch_timestamp (cp_header c) mod 2 ^ 26 -> decode m g o dst q = WOk [] (p', r', dst') ->
  let sent := h_time (pdu_header p) in let got := h_time (pdu_header p') in
  exists k, 0 <= k < 60 /\ Z.abs (13 * (got - sent) + k * (14 * 2 ^ 26)) <= 13 * 1500 /\
    (sent <= 72271000 -> k = 0 /\ Z.abs (got - sent) <= 46) /\ (72271200 <= sent -> 1 <= k).
Proof.
  intros g o now est p c r est' m dst q p' r' dst' H E Q D. unfold encode in E. destruct (enc_body _ _ _ _ _) as [[[b r0] e0]|]; [|discriminate]. injection E as <- <- <-.
  cbn [cfinalize cp_header ch_timestamp enc_header] in Q. unfold decode in D. destruct (dec_body _ _ _ _) as [[b' r1] d1]. unfold finalize in D.
  destruct (body_length m b') as [bs n|]; [|discriminate]. unfold with_length, wbind, wret in D. destruct (add16 m 12 n) as [bs2 n2|]; [|discriminate D].
  injection D as _ P _ _. assert (T : h_time (pdu_header p') = cdis_to_dis_ts (ch_timestamp (cp_header q))) by (rewrite <- P; reflexivity).
  cbv zeta. rewrite T, Q. apply stamp_trip. exact H.
Qed.
(*@ex*)
Example cdis_timestamp_trip_example : cdis_to_dis_ts (dis_to_cdis_ts 1193046 mod 2 ^ 26) = 1193046 /\ 1193046 <= 72271000.
Proof. split; [vm_compute; reflexivity|lia]. Qed.

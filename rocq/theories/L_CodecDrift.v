(** * Translating to C-DIS and back, over and over (lemmas and properties) *)
From Coq Require Import ZArith List Lia Bool SpecFloat Reals Lra Psatz.
From Flocq Require Import Core BinarySingleNaN.
From Verif Require Import Base CdisBase DisCommon DisHeader DisLists DisSimman DisLogistics DisWarfare DisEntity DisEmission DisRadio DisIff
  CdisRecords CdisBodies1 CdisBodies2 CdisIff CdisPdu CdisCodec1 CdisCodec2 CdisCodec3 SpecFloatValue SpecContent FloatReal FloatBits L_CodecNum L_CodecPrec.
Import ListNotations. Open Scope Z_scope.

(** a rounding conversion undoes the division by the same scale: both roundings together are far below one half *)
Lemma rounded_back z c lo hi : lo <= z <= hi -> -65536 <= lo <= 0 -> 0 <= hi <= 65536 -> ok24 c -> (/ 1000 <= val c <= 1000)%R ->
  sf_round_cast lo hi (sfmul (sfdiv (fz z) c) c) = z.
Proof.
  intros H L U C B. destruct (unscaled z c ltac:(lia) C ltac:(lra)) as [G N].
  destruct (scaled sf_round_cast (/ 2) (sfdiv (fz z) c) c lo hi round_converts ltac:(lra) G C ltac:(lia) ltac:(lia)) as [R M].
  set (z' := sf_round_cast lo hi (sfmul (sfdiv (fz z) c) c)) in *. set (v := val (sfdiv (fz z) c)) in *.
  assert (Z : (Rabs (IZR z) <= 65536)%R) by (rewrite <- abs_IZR; apply IZR_le; lia).
  assert (E : (Rabs (v * val c - IZR z) <= 0.005)%R).
  { replace (v * val c - IZR z)%R with ((v - IZR z / val c) * val c)%R by (field; lra).
    rewrite Rabs_mult, (Rabs_right (val c)) by lra. unfold Rdiv in N at 2. rewrite Rabs_mult, Rabs_inv, (Rabs_right (val c)) in N by lra.
    apply Rle_trans with ((Rabs (IZR z) * / val c * ulp24 + tiny) * val c)%R; [apply Rmult_le_compat_r; lra|].
    replace ((Rabs (IZR z) * / val c * ulp24 + tiny) * val c)%R with (Rabs (IZR z) * ulp24 + tiny * val c)%R by (field; lra).
    unfold ulp24, tiny. nra. }
  assert (K : (Rabs (clip (IZR lo) (IZR hi) (v * val c) - clip (IZR lo) (IZR hi) (IZR z)) <= 0.005)%R) by (eapply Rle_trans; [apply clip_lip|exact E]).
  rewrite (clip_id _ _ (IZR z)) in K by (split; apply IZR_le; lia).
  assert (D : (Rabs (IZR (z' - z)) < 1)%R).
  { rewrite minus_IZR. apply Rabs_le_inv in K. apply Rabs_le_inv in M. apply Rabs_def1; lra. }
  rewrite <- abs_IZR in D. apply lt_IZR in D. lia.
Qed.
(** dividing a whole number by ten and multiplying by ten is exact: ten is 8 + 2 *)
Lemma even_tie (m : Z) (x : R) : Z.even m = true -> (Rabs (x - IZR m) <= / 2)%R -> ZnearestE x = m.
Proof.
  intros Ev H. destruct (Rle_lt_or_eq_dec _ _ H) as [L|E].
  - now apply Znearest_imp.
  - unfold Znearest. apply Rabs_le_inv in H. unfold Rabs in E. destruct Rcase_abs as [N|N].
    + assert (X : (x = IZR m - / 2)%R) by lra. assert (F : Zfloor x = m - 1) by (apply Zfloor_imp; rewrite minus_IZR, plus_IZR, minus_IZR; lra).
      rewrite F. rewrite Rcompare_Eq by (rewrite minus_IZR; lra). assert (O : Z.even (m - 1) = false) by (rewrite <- Z.negb_odd, Z.odd_sub, <- (Z.negb_even m), Ev; reflexivity).
      rewrite O. cbn. assert (CL : Zceil x = m) by (apply Zceil_imp; rewrite minus_IZR; lra). exact CL.
    + assert (X : (x = IZR m + / 2)%R) by lra. assert (F : Zfloor x = m) by (apply Zfloor_imp; rewrite plus_IZR; lra).
      rewrite F. rewrite Rcompare_Eq by lra. now rewrite Ev.
Qed.
Notation fexp24 := (SpecFloat.fexp 24 128).
Lemma tenth_exact z : z <> 0 -> Z.abs z <= 32768 -> rnd 24 128 (rnd 24 128 (IZR z / 10) * 10) = IZR z.
Proof.
  intros NZ B. assert (A1 : (1 <= Rabs (IZR z))%R) by (rewrite <- abs_IZR; apply IZR_le; lia).
  assert (A2 : (Rabs (IZR z) <= 32768)%R) by (rewrite <- abs_IZR; apply IZR_le; lia).
  set (y := (IZR z / 10)%R). assert (Y : (Rabs y = Rabs (IZR z) / 10)%R) by (unfold y, Rdiv; rewrite Rabs_mult, (Rabs_right (/ 10)) by lra; reflexivity).
  assert (Y0 : y <> 0%R) by (intros E; rewrite E, Rabs_R0 in Y; lra).
  pose proof (bpow_mag_le radix2 y Y0) as My. pose proof (bpow_mag_gt radix2 y) as Gy.
  assert (e1 : mag radix2 y <= 12) by (apply mag_le_bpow; [exact Y0|]; change (bpow radix2 12) with 4096%R; lra).
  assert (e0 : -4 < mag radix2 y) by (apply (lt_bpow radix2); eapply Rle_lt_trans; [|exact Gy]; change (bpow radix2 (-4)) with (/ 16)%R; lra).
  set (e := (mag radix2 y : Z)) in *.
  assert (Cy : cexp radix2 fexp24 y = e - 24) by (unfold cexp; fold e; unfold SpecFloat.fexp, SpecFloat.emin; lia).
  set (q := rnd 24 128 y).
  assert (Q : q = (IZR (ZnearestE (scaled_mantissa radix2 fexp24 y)) * bpow radix2 (e - 24))%R) by (unfold q, rnd, round, F2R; cbn [Fnum Fexp]; now rewrite Cy).
  assert (Qge : (bpow radix2 (e - 1) <= Rabs q)%R).
  { unfold q, rnd. apply abs_round_ge_generic; [typeclasses eauto|typeclasses eauto| |exact My].
    apply generic_format_bpow. unfold SpecFloat.fexp, SpecFloat.emin. lia. }
  assert (SM : scaled_mantissa radix2 fexp24 y = (y * bpow radix2 (- (e - 24)))%R) by (unfold scaled_mantissa; now rewrite Cy).
  rewrite SM in Q. set (n := ZnearestE (y * bpow radix2 (- (e - 24)))) in *.
  assert (Pw : bpow radix2 (- (e - 24)) = IZR (2 ^ (24 - e))) by (replace (- (e - 24)) with (24 - e) by lia; rewrite (IZR_Zpower radix2) by lia; reflexivity).
  assert (Nn : (Rabs (y * bpow radix2 (- (e - 24)) - IZR n) <= / 2)%R) by apply Znearest_half.
  rewrite Pw in Nn. unfold y in Nn.
  assert (R5 : Z.abs (10 * n - z * 2 ^ (24 - e)) <= 5).
  { apply le_IZR. rewrite abs_IZR, minus_IZR, !mult_IZR. replace (10 * IZR n - IZR z * IZR (2 ^ (24 - e)))%R with (- 10 * (IZR z / 10 * IZR (2 ^ (24 - e)) - IZR n))%R by field.
    rewrite Rabs_mult, Rabs_left by lra. lra. }
  assert (R4 : Z.abs (10 * n - z * 2 ^ (24 - e)) <= 4).
  { replace (24 - e) with (1 + (23 - e)) in * by lia. rewrite Z.pow_add_r in * by lia. lia. }
  set (x := (q * 10)%R).
  assert (D : (Rabs (x - IZR z) <= 4 * bpow radix2 (e - 24))%R).
  { unfold x. rewrite Q. replace (IZR n * bpow radix2 (e - 24) * 10 - IZR z)%R with (IZR (10 * n - z * 2 ^ (24 - e)) * bpow radix2 (e - 24))%R.
    - rewrite Rabs_mult, (Rabs_right (bpow _ _)) by (apply Rle_ge, bpow_ge_0). apply Rmult_le_compat_r; [apply bpow_ge_0|]. rewrite <- abs_IZR. now apply IZR_le.
    - rewrite minus_IZR, !mult_IZR, (IZR_Zpower radix2) by lia. rewrite Rmult_minus_distr_r, (Rmult_assoc (IZR z)), <- bpow_plus. replace (24 - e + (e - 24)) with 0 by lia. cbn [bpow]. ring. }
  assert (X0 : x <> 0%R) by (unfold x; intros E; apply Rmult_integral in E; destruct E as [E|E]; [rewrite E, Rabs_R0 in Qge; pose proof (bpow_gt_0 radix2 (e - 1)); lra|lra]).
  assert (Xge : (bpow radix2 (e + 2) <= Rabs x)%R).
  { unfold x. rewrite Rabs_mult, (Rabs_right 10) by lra. replace (e + 2) with ((e - 1) + 3) by lia. rewrite bpow_plus. change (bpow radix2 3) with 8%R. pose proof (bpow_ge_0 radix2 (e - 1)). lra. }
  assert (m0 : e + 3 <= mag radix2 x) by (apply mag_ge_bpow; replace (e + 3 - 1) with (e + 2) by lia; exact Xge).
  assert (m1 : mag radix2 x <= 16).
  { apply mag_le_bpow; [exact X0|]. change (bpow radix2 16) with 65536%R. assert (E12 : (bpow radix2 (e - 24) <= bpow radix2 0)%R) by (apply bpow_le; lia). cbn [bpow] in E12.
    replace x with ((x - IZR z) + IZR z)%R by ring. eapply Rle_lt_trans; [apply Rabs_triang|]. lra. }
  set (c := cexp radix2 fexp24 x). assert (Cx : c = mag radix2 x - 24) by (unfold c, cexp, SpecFloat.fexp, SpecFloat.emin; lia).
  unfold rnd, round, F2R. cbn [Fnum Fexp]. fold c.
  assert (T : ZnearestE (scaled_mantissa radix2 fexp24 x) = z * 2 ^ (- c)).
  { apply even_tie.
    - rewrite Z.even_mul, Z.even_pow by lia. apply orb_true_r.
    - unfold scaled_mantissa. fold c. rewrite mult_IZR, (IZR_Zpower radix2) by lia. rewrite <- Rmult_minus_distr_r, Rabs_mult, (Rabs_right (bpow _ _)) by (apply Rle_ge, bpow_ge_0).
      apply Rle_trans with (4 * bpow radix2 (e - 24) * bpow radix2 (- c))%R; [apply Rmult_le_compat_r; [apply bpow_ge_0|exact D]|].
      rewrite Rmult_assoc, <- bpow_plus. change 4%R with (bpow radix2 2). rewrite <- bpow_plus. change (/ 2)%R with (bpow radix2 (-1)). apply bpow_le. lia. }
  rewrite T, mult_IZR, (IZR_Zpower radix2) by lia. rewrite Rmult_assoc, <- bpow_plus. replace (- c + c) with 0 by lia. cbn [bpow]. ring.
Qed.
Lemma decimeters_back z : -32768 <= z <= 32767 -> to_decimeters (from_decimeters z) = z.
Proof.
  intros H. destruct (Z.eq_dec z 0) as [->|NZ]; [vm_compute; reflexivity|].
  destruct ten_ok as [T TV]. destruct (int_exact z ltac:(lia)) as [F V]. pose proof (tenth_exact z NZ ltac:(lia)) as X.
  assert (B : (Rabs (IZR z) <= 32768)%R) by (rewrite <- abs_IZR; apply IZR_le; lia).
  assert (B' : (Rabs (IZR z / 10) <= 3277)%R) by (unfold Rdiv; rewrite Rabs_mult, (Rabs_right (/ 10)) by lra; lra).
  destruct (div_R 24 128 _ _ (fz z) (fz 10) F T) as [G W]; [rewrite TV; lra|rewrite TV; unfold fz; rewrite V; apply rnd_small; unfold huge; lra|].
  rewrite TV in W. change (val (fz z)) with (val (sf_of_int z)) in W. rewrite V in W.
  unfold to_decimeters, from_decimeters, f32_as_i16, sfdiv. rewrite (proj1 (bits_round_trip _ G)).
  destruct (mul_R 24 128 _ _ (SFdiv 24 128 (fz z) (fz 10)) (fz 10) G T) as [G2 W2].
  - rewrite W, TV, X. apply Rle_lt_trans with 32768%R; [exact B|]. change (bpow radix2 128) with (IZR (2 ^ 128)). apply IZR_lt. reflexivity.
  - rewrite W, TV, X in W2. unfold sfmul. rewrite (cast_fin 24 128) by (lia || exact G2). rewrite W2, Ztrunc_IZR. lia.
Qed.
Lemma beam_angle_back z : -32768 <= z <= 32767 -> enc_beam_angle (dec_beam_angle z) = z.
Proof.
  intros H. destruct beam_ok as [T TV]. unfold enc_beam_angle, dec_beam_angle.
  rewrite (proj1 (bits_round_trip _ (proj1 (unscaled z _ ltac:(lia) T ltac:(lra))))). apply rounded_back; try lia; [exact T|lra].
Qed.
Lemma sync_back z : 0 <= z <= 65535 -> sf_round_cast 0 65535 (sfmul (sf_of_bits (bits_of_sf (sfdiv (fz z) sync_scale))) sync_scale) = z.
Proof.
  intros H. destruct sync_ok as [T TV].
  rewrite (proj1 (bits_round_trip _ (proj1 (unscaled z _ ltac:(lia) T ltac:(lra))))). apply rounded_back; try lia; [exact T|lra].
Qed.
Lemma round_range lo hi f : lo <= 0 <= hi -> lo <= sf_round_cast lo hi f <= hi.
Proof. intros H. destruct f as [s|s| |s p e]; cbn [sf_round_cast]; try destruct s; lia. Qed.
Lemma to_decimeters_range b : -32768 <= to_decimeters b <= 32767.
Proof. apply cast_range. lia. Qed.

(*@C49 Translating a velocity to C-DIS and back a second time changes nothing: every velocity, even one with infinite or undefined components. *)
Lemma cdis_velocity_stable_pf : forall v, let hop v := dec_velocity (enc_velocity v) in hop (hop v) = hop v.
Proof.
  intros v hop. unfold hop, dec_velocity, enc_velocity. cbn [v_1 v_2 v_3 CLinearVelocity_x CLinearVelocity_y CLinearVelocity_z].
  now rewrite !decimeters_back by apply to_decimeters_range.
Qed.
(*@C49 The same of accelerations. *)
Lemma cdis_acceleration_stable_pf : forall v, let hop v := dec_acceleration (enc_acceleration v) in hop (hop v) = hop v.
Proof.
  intros v hop. unfold hop, dec_acceleration, enc_acceleration. cbn [v_1 v_2 v_3 CLinearAcceleration_x CLinearAcceleration_y CLinearAcceleration_z].
  now rewrite !decimeters_back by apply to_decimeters_range.
Qed.
(*@C49 The same of beams. *)
Lemma cdis_beam_stable_pf : forall b, let hop b := dec_beam (enc_beam b) in hop (hop b) = hop b.
Proof.
  intros b hop. unfold hop, dec_beam, enc_beam. cbn [bd_azc bd_azs bd_elc bd_els bd_sync cbd_az_center cbd_az_sweep cbd_el_center cbd_el_sweep cbd_sync].
  rewrite !beam_angle_back by (apply round_range; lia). now rewrite sync_back by (apply round_range; lia).
Qed.
(*@C49 The frequency of a transmitter below 16777216 Hz: however often it is translated it stays what it was. *)
Lemma cdis_hertz_stable_pf : forall f n, 0 <= f <= 16777215 -> Nat.iter n (fun f => dec_tx_frequency (enc_tx_frequency f)) f = f.
Proof. intros f n H. induction n as [|n IH]; [reflexivity|].
  change (dec_tx_frequency (enc_tx_frequency (Nat.iter n (fun f => dec_tx_frequency (enc_tx_frequency f)) f)) = f). rewrite IH. now apply hertz. Qed.
(*@C49 Orientation angles do drift: each translation truncates, so they can change again when they are translated a second time (one radian, for instance). *)
Lemma cdis_orientation_stable_refuted_pf : exists o, let hop o := dec_orientation (enc_orientation o) in f32_finite (or_psi o) /\ hop (hop o) <> hop o.
Proof. exists (MkOrientation 1065353216 0 0). split; [split; vm_compute; [split; congruence|discriminate]|vm_compute; discriminate]. Qed.
(*@C49 So do rates of turn ... *)
Lemma cdis_turning_stable_refuted_pf : exists v, let hop v := dec_angular (enc_angular v) in all_finite v /\ hop (hop v) <> hop v.
Proof. exists (MkVectorF32 1053986200 0 0). split; [repeat split; vm_compute; try congruence; discriminate|vm_compute; discriminate]. Qed.
(*@C49 ... and entity coordinates. *)
Lemma cdis_coordinates_stable_refuted_pf : exists v, let hop v := dec_ecv (fst (enc_ecv v)) (snd (enc_ecv v)) in all_finite v /\ hop (hop v) <> hop v.
Proof. exists (MkVectorF32 1057468024 0 0). split; [repeat split; vm_compute; try congruence; discriminate|vm_compute; discriminate]. Qed.
(*@C49 Yet the drift is bounded: after any number n of translations an angle is within n times 0.00078 rad of the first one, up to whole turns. *)
Lemma cdis_orientation_drift_pf : forall n b, f32_finite b -> let b' := Nat.iter n (fun b => dec_angle (enc_angle b)) b in
  f32_finite b' /\ exists k : Z, within (INR n * 0.00078) (f32_value b') (f32_value b + IZR k * turn).
Proof.
  intros n b F. cbv zeta. induction n as [|n (G & k & W)].
  - cbn [Nat.iter nat_rect]. split; [exact F|]. exists 0. unfold within. cbn [INR]. rewrite Rabs_pos_eq; lra.
  - set (a := Nat.iter n (fun b => dec_angle (enc_angle b)) b) in *. change (Nat.iter (S n) (fun b => dec_angle (enc_angle b)) b) with (dec_angle (enc_angle a)). destruct (proj1 (angle a) G) as (A & j & B). split; [exact A|].
    exists (k + j). unfold within in *. rewrite plus_IZR, S_INR. apply Rabs_le_inv in W. apply Rabs_le_inv in B. apply Rabs_le. lra.
Qed.

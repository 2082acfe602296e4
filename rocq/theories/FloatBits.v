(** * Floats: bit patterns and casts as real numbers (lemmas) *)
From Coq Require Import ZArith List Lia Bool SpecFloat Reals Lra Psatz.
From Flocq Require Import Core BinarySingleNaN Relative.
From Verif Require Import Base CdisBase DisCommon CdisRecords CdisCodec1.
From Verif Require Import SpecFloatValue FloatReal.
Open Scope R_scope.
Notation ok24 := (fin 24 128).
Notation val := (SF2R radix2).
#[global] Instance prec24 : Prec_gt_0 24 := eq_refl.
#[global] Instance prec24_lt : Prec_lt_emax 24 128 := eq_refl.
#[global] Instance prec53 : Prec_gt_0 53 := eq_refl.
#[global] Instance prec53_lt : Prec_lt_emax 53 1024 := eq_refl.

Lemma digits_bound (p : positive) n : (2 ^ (n - 1) <= Zpos p < 2 ^ n)%Z -> (0 < n)%Z -> Zpos (digits2_pos p) = n.
Proof.
  intros H N. change (digits2_pos p) with (Digits.digits2_pos p). rewrite Digits.Zpos_digits2_pos. apply Digits.Zdigits_unique.
  change (Zaux.radix_val radix2) with 2%Z. rewrite Z.abs_eq by lia. lia.
Qed.
Lemma digits_le (p : positive) n : (Zpos p < 2 ^ n)%Z -> (0 <= n)%Z -> (Zpos (digits2_pos p) <= n)%Z.
Proof.
  intros H N. change (digits2_pos p) with (Digits.digits2_pos p). rewrite Digits.Zpos_digits2_pos.
  apply Digits.Zdigits_le_Zpower. change (Zaux.radix_val radix2) with 2%Z. rewrite Z.abs_eq by lia. lia.
Qed.
Lemma bounded_spec p e : ((2 ^ 23 <= Zpos p < 2 ^ 24 /\ -149 <= e <= 104) \/ (Zpos p < 2 ^ 23 /\ e = -149))%Z -> SpecFloat.bounded 24 128 p e = true.
Proof.
  intros H. unfold SpecFloat.bounded, SpecFloat.canonical_mantissa. apply andb_true_intro. unfold SpecFloat.fexp, SpecFloat.emin.
  destruct H as [[A B]|[A ->]].
  - assert (E : Zpos (digits2_pos p) = 24%Z) by (apply digits_bound; [exact A|lia]). rewrite E. split; [apply Zeq_bool_true; lia|apply Zle_bool_true; lia].
  - assert (E : (Zpos (digits2_pos p) <= 23)%Z) by (apply digits_le; [exact A|lia]). split; [apply Zeq_bool_true; lia|reflexivity].
Qed.
Lemma bounded_inv p e : SpecFloat.bounded 24 128 p e = true -> ((2 ^ 23 <= Zpos p < 2 ^ 24 /\ -149 <= e <= 104) \/ (Zpos p < 2 ^ 23 /\ e = -149))%Z.
Proof.
  intros H. unfold SpecFloat.bounded, SpecFloat.canonical_mantissa in H. apply andb_true_iff in H. destruct H as [A B].
  apply Zeq_bool_eq in A. apply Zle_bool_imp_le in B. unfold SpecFloat.fexp, SpecFloat.emin in A.
  assert (L : (Zpos p < 2 ^ Zpos (digits2_pos p))%Z /\ (2 ^ (Zpos (digits2_pos p) - 1) <= Zpos p)%Z).
  { change (digits2_pos p) with (Digits.digits2_pos p). rewrite Digits.Zpos_digits2_pos. pose proof (Digits.Zdigits_correct radix2 (Zpos p)) as C.
    change (Zaux.radix_val radix2) with 2%Z in C. rewrite Z.abs_eq in C by lia. lia. }
  destruct L as [L1 L2]. set (d := Zpos (digits2_pos p)) in *.
  assert (0 < d)%Z by (unfold d; lia).
  destruct (Z.le_gt_cases d 23) as [C|C].
  - right. split; [|lia]. eapply Z.lt_le_trans; [exact L1|]. apply Z.pow_le_mono_r; lia.
  - assert (d <= 24)%Z by lia. assert (E : d = 24%Z) by lia. rewrite E in *. left. change (24 - 1)%Z with 23%Z in L2. split; lia.
Qed.
Lemma of_bits_fin b : f32_finite b -> ok24 (sf_of_bits b) /\ val (sf_of_bits b) = f32_value b.
Proof.
  intros [R N]. unfold fin, sf_of_bits, f32_value, f32_exponent, f32_fraction in *. cbv zeta.
  pose proof (Z.mod_pos_bound b (2 ^ 23) eq_refl) as K. pose proof (Z.mod_pos_bound (b / 2 ^ 23) 256 eq_refl) as X.
  set (e := ((b / 2 ^ 23) mod 256)%Z) in *. set (k := (b mod 2 ^ 23)%Z) in *. set (s := (2 ^ 31 <=? b)%Z).
  rewrite (proj2 (Z.eqb_neq _ _) N).
  destruct (Z.eqb_spec e 0) as [->|E].
  - destruct k as [|p|p]; [|split|lia].
    + split; [split; reflexivity|]. cbn [SF2R]. ring.
    + split; [|reflexivity]. cbn [valid_binary]. apply bounded_spec. right. split; [lia|reflexivity].
    + cbn [SF2R]. unfold F2R. cbn [Fnum Fexp]. rewrite bpow_powerRZ. destruct s; cbn [cond_Zopp]; rewrite ?opp_IZR; cbn [IZR]; change (IZR (Zaux.radix_val radix2)) with 2; ring.
  - rewrite Z.add_comm. destruct (2 ^ 23 + k)%Z as [|p|p] eqn:Q; [lia|split|lia].
    + split; [|reflexivity]. cbn [valid_binary]. apply bounded_spec. left. lia.
    + cbn [SF2R]. unfold F2R. cbn [Fnum Fexp]. rewrite bpow_powerRZ. destruct s; cbn [cond_Zopp]; rewrite ?opp_IZR; cbn [IZR]; change (IZR (Zaux.radix_val radix2)) with 2; ring.
Qed.
Lemma bits_round_trip f : ok24 f -> sf_of_bits (bits_of_sf f) = f /\ f32_finite (bits_of_sf f).
Proof.
  intros [V F]. destruct f as [s|s| |s p e]; cbn [is_finite_SF] in F; try discriminate.
  - destruct s; split; vm_compute; try reflexivity; repeat split; discriminate.
  - cbn [valid_binary] in V. apply bounded_inv in V. unfold bits_of_sf, sf_of_bits, f32_finite, f32_exponent. cbv zeta.
    set (sg := (if s then 2 ^ 31 else 0)%Z).
    assert (S : forall r, (0 <= r < 2 ^ 31)%Z -> ((2 ^ 31 <=? sg + r) = s /\ (sg + r) mod 2 ^ 23 = r mod 2 ^ 23 /\ ((sg + r) / 2 ^ 23) mod 256 = r / 2 ^ 23 /\ 0 <= sg + r < 2 ^ 32)%Z).
    { intros r Hr. assert (r / 2 ^ 23 < 256)%Z by (apply Z.div_lt_upper_bound; lia). assert (0 <= r / 2 ^ 23)%Z by (apply Z.div_pos; lia).
      unfold sg. destruct s.
      - repeat split; try lia.
        + change (2 ^ 31)%Z with (256 * 2 ^ 23)%Z. rewrite Z.add_comm, Z.mod_add by lia. reflexivity.
        + change (2 ^ 31)%Z with (256 * 2 ^ 23)%Z. rewrite Z.add_comm, Z.div_add by lia. replace (r / 2 ^ 23 + 256)%Z with (r / 2 ^ 23 + 1 * 256)%Z by lia. rewrite Z.mod_add by lia. apply Z.mod_small. lia.
      - rewrite Z.add_0_l. repeat split; try lia. apply Z.mod_small. lia. }
    destruct V as [[A B]|[A ->]].
    + destruct (Z.ltb_spec (Zpos p) (2 ^ 23)); [lia|]. destruct (S ((e + 150) * 2 ^ 23 + (Zpos p - 2 ^ 23))%Z ltac:(lia)) as (S1 & S2 & S3 & S4). rewrite S1, S2, S3.
      replace (((e + 150) * 2 ^ 23 + (Zpos p - 2 ^ 23)) mod 2 ^ 23)%Z with (Zpos p - 2 ^ 23)%Z by (rewrite Z.add_comm, Z.mod_add by lia; symmetry; apply Z.mod_small; lia).
      replace (((e + 150) * 2 ^ 23 + (Zpos p - 2 ^ 23)) / 2 ^ 23)%Z with (e + 150)%Z by (rewrite Z.div_add_l by lia; rewrite (Z.div_small (Zpos p - 2 ^ 23)) by lia; lia).
      destruct (Z.eqb_spec (e + 150) 255); [lia|]. destruct (Z.eqb_spec (e + 150) 0); [lia|]. replace (Zpos p - 2 ^ 23 + 2 ^ 23)%Z with (Zpos p) by lia.
      replace (e + 150 - 150)%Z with e by lia. repeat split; lia.
    + destruct (Z.ltb_spec (Zpos p) (2 ^ 23)); [|lia]. destruct (S (Zpos p) ltac:(lia)) as (S1 & S2 & S3 & S4). rewrite S1, S2, S3.
      rewrite Z.div_small, Z.mod_small by lia. cbn [Z.eqb]. repeat split; try lia.
Qed.
Lemma bits_of_fin f : ok24 f -> f32_finite (bits_of_sf f) /\ f32_value (bits_of_sf f) = val f.
Proof. intros H. destruct (bits_round_trip f H) as [E F]. split; [exact F|]. rewrite <- (proj2 (of_bits_fin _ F)), E. reflexivity. Qed.
(** casts *)
Lemma trunc_val s p e : sf_trunc s p e = Ztrunc (val (S754_finite s p e)).
Proof.
  unfold sf_trunc. cbn [SF2R]. unfold F2R. cbn [Fnum Fexp].
  assert (P : Ztrunc (IZR (Zpos p) * bpow radix2 e) = if (0 <=? e)%Z then (Zpos p * 2 ^ e)%Z else (Zpos p / 2 ^ (- e))%Z).
  { destruct (Z.leb_spec 0 e) as [H|H].
    - rewrite <- (Ztrunc_IZR (Zpos p * 2 ^ e)). f_equal. rewrite mult_IZR. f_equal. rewrite <- IZR_Zpower by exact H. reflexivity.
    - rewrite Ztrunc_floor by (apply Rmult_le_pos; [apply IZR_le; lia|apply bpow_ge_0]).
      replace e with (- (- e))%Z at 1 by lia. rewrite bpow_opp, <- IZR_Zpower by lia. fold (IZR (Zpos p) / IZR (Zaux.radix2 ^ (- e))).
      apply Zfloor_div. change (Zaux.radix_val radix2) with 2%Z. apply Z.pow_nonzero; lia. }
  rewrite <- P. destruct s; cbn [cond_Zopp]; [|reflexivity]. rewrite <- Ztrunc_opp. f_equal. change (Zneg p) with (- Zpos p)%Z. rewrite opp_IZR. ring.
Qed.
Lemma cast_fin prec emax f lo hi : (lo <= 0 <= hi)%Z -> fin prec emax f -> sf_cast lo hi f = Z.max lo (Z.min hi (Ztrunc (val f))).
Proof.
  intros H [_ F]. destruct f as [s|s| |s p e]; cbn [is_finite_SF] in F; try discriminate.
  - cbn [sf_cast SF2R]. rewrite (Ztrunc_IZR 0). lia.
  - cbn [sf_cast]. now rewrite trunc_val.
Qed.
Lemma trunc_near r : Rabs (r - IZR (Ztrunc r)) < 1.
Proof.
  destruct (Rle_dec 0 r) as [H|H].
  - rewrite Ztrunc_floor by exact H. pose proof (Zfloor_lb r). pose proof (Zfloor_ub r). apply Rabs_lt. lra.
  - rewrite Ztrunc_ceil by lra. pose proof (Zceil_ub r). pose proof (Zceil_lb r). apply Rabs_lt. lra.
Qed.

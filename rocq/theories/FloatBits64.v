(** * Floats of double precision: bit patterns as real numbers (lemmas) *)
From Coq Require Import ZArith List Lia Bool SpecFloat Reals Lra Psatz.
From Flocq Require Import Core BinarySingleNaN Relative.
From Verif Require Import Base CdisBase DisCommon CdisRecords CdisCodec1.
From Verif Require Import SpecFloatValue FloatReal FloatBits.
Open Scope R_scope.
Notation ok53 := (fin 53 1024).

Lemma bounded53_spec p e : ((2 ^ 52 <= Zpos p < 2 ^ 53 /\ -1074 <= e <= 971) \/ (Zpos p < 2 ^ 52 /\ e = -1074))%Z -> SpecFloat.bounded 53 1024 p e = true.
Proof.
  intros H. unfold SpecFloat.bounded, SpecFloat.canonical_mantissa. apply andb_true_intro. unfold SpecFloat.fexp, SpecFloat.emin.
  destruct H as [[A B]|[A ->]].
  - assert (E : Zpos (digits2_pos p) = 53%Z) by (apply digits_bound; [exact A|lia]). rewrite E. split; [apply Zeq_bool_true; lia|apply Zle_bool_true; lia].
  - assert (E : (Zpos (digits2_pos p) <= 52)%Z) by (apply digits_le; [exact A|lia]). split; [apply Zeq_bool_true; lia|reflexivity].
Qed.
Lemma bounded53_inv p e : SpecFloat.bounded 53 1024 p e = true -> ((2 ^ 52 <= Zpos p < 2 ^ 53 /\ -1074 <= e <= 971) \/ (Zpos p < 2 ^ 52 /\ e = -1074))%Z.
Proof.
  intros H. unfold SpecFloat.bounded, SpecFloat.canonical_mantissa in H. apply andb_true_iff in H. destruct H as [A B].
  apply Zeq_bool_eq in A. apply Zle_bool_imp_le in B. unfold SpecFloat.fexp, SpecFloat.emin in A.
  assert (L : (Zpos p < 2 ^ Zpos (digits2_pos p))%Z /\ (2 ^ (Zpos (digits2_pos p) - 1) <= Zpos p)%Z).
  { change (digits2_pos p) with (Digits.digits2_pos p). rewrite Digits.Zpos_digits2_pos. pose proof (Digits.Zdigits_correct radix2 (Zpos p)) as C.
    change (Zaux.radix_val radix2) with 2%Z in C. rewrite Z.abs_eq in C by lia. lia. }
  destruct L as [L1 L2]. set (d := Zpos (digits2_pos p)) in *.
  assert (0 < d)%Z by (unfold d; lia).
  destruct (Z.le_gt_cases d 52) as [C|C].
  - right. split; [|lia]. eapply Z.lt_le_trans; [exact L1|]. apply Z.pow_le_mono_r; lia.
  - assert (d <= 53)%Z by lia. assert (E : d = 53%Z) by lia. rewrite E in *. left. change (53 - 1)%Z with 52%Z in L2. split; lia.
Qed.
Lemma of_bits53_fin b : f64_finite b -> ok53 (df_of_bits b) /\ val (df_of_bits b) = f64_value b.
Proof.
  intros [R N]. unfold fin, df_of_bits, f64_value, f64_exponent, f64_fraction in *. cbv zeta.
  pose proof (Z.mod_pos_bound b (2 ^ 52) eq_refl) as K. pose proof (Z.mod_pos_bound (b / 2 ^ 52) 2048 eq_refl) as X.
  set (e := ((b / 2 ^ 52) mod 2048)%Z) in *. set (k := (b mod 2 ^ 52)%Z) in *. set (s := (2 ^ 63 <=? b)%Z).
  rewrite (proj2 (Z.eqb_neq _ _) N).
  destruct (Z.eqb_spec e 0) as [->|E].
  - destruct k as [|p|p]; [|split|lia].
    + split; [split; reflexivity|]. cbn [SF2R]. ring.
    + split; [|reflexivity]. cbn [valid_binary]. apply bounded53_spec. right. split; [lia|reflexivity].
    + cbn [SF2R]. unfold F2R. cbn [Fnum Fexp]. rewrite bpow_powerRZ. destruct s; cbn [cond_Zopp]; rewrite ?opp_IZR; cbn [IZR]; change (IZR (Zaux.radix_val radix2)) with 2; ring.
  - rewrite Z.add_comm. destruct (2 ^ 52 + k)%Z as [|p|p] eqn:Q; [lia|split|lia].
    + split; [|reflexivity]. cbn [valid_binary]. apply bounded53_spec. left. lia.
    + cbn [SF2R]. unfold F2R. cbn [Fnum Fexp]. rewrite bpow_powerRZ. destruct s; cbn [cond_Zopp]; rewrite ?opp_IZR; cbn [IZR]; change (IZR (Zaux.radix_val radix2)) with 2; ring.
Qed.
Lemma bits53_round_trip f : ok53 f -> df_of_bits (bits_of_df f) = f /\ f64_finite (bits_of_df f).
Proof.
  intros [V F]. destruct f as [s|s| |s p e]; cbn [is_finite_SF] in F; try discriminate.
  - destruct s; split; vm_compute; try reflexivity; repeat split; discriminate.
  - cbn [valid_binary] in V. apply bounded53_inv in V. unfold bits_of_df, df_of_bits, f64_finite, f64_exponent. cbv zeta.
    set (sg := (if s then 2 ^ 63 else 0)%Z).
    assert (S : forall r, (0 <= r < 2 ^ 63)%Z -> ((2 ^ 63 <=? sg + r) = s /\ (sg + r) mod 2 ^ 52 = r mod 2 ^ 52 /\ ((sg + r) / 2 ^ 52) mod 2048 = r / 2 ^ 52 /\ 0 <= sg + r < 2 ^ 64)%Z).
    { intros r Hr. assert (r / 2 ^ 52 < 2048)%Z by (apply Z.div_lt_upper_bound; lia). assert (0 <= r / 2 ^ 52)%Z by (apply Z.div_pos; lia).
      unfold sg. destruct s.
      - repeat split; try lia.
        + change (2 ^ 63)%Z with (2048 * 2 ^ 52)%Z. rewrite Z.add_comm, Z.mod_add by lia. reflexivity.
        + change (2 ^ 63)%Z with (2048 * 2 ^ 52)%Z. rewrite Z.add_comm, Z.div_add by lia. replace (r / 2 ^ 52 + 2048)%Z with (r / 2 ^ 52 + 1 * 2048)%Z by lia. rewrite Z.mod_add by lia. apply Z.mod_small. lia.
      - rewrite Z.add_0_l. repeat split; try lia. apply Z.mod_small. lia. }
    destruct V as [[A B]|[A ->]].
    + destruct (Z.ltb_spec (Zpos p) (2 ^ 52)); [lia|]. destruct (S ((e + 1075) * 2 ^ 52 + (Zpos p - 2 ^ 52))%Z ltac:(lia)) as (S1 & S2 & S3 & S4). rewrite S1, S2, S3.
      replace (((e + 1075) * 2 ^ 52 + (Zpos p - 2 ^ 52)) mod 2 ^ 52)%Z with (Zpos p - 2 ^ 52)%Z by (rewrite Z.add_comm, Z.mod_add by lia; symmetry; apply Z.mod_small; lia).
      replace (((e + 1075) * 2 ^ 52 + (Zpos p - 2 ^ 52)) / 2 ^ 52)%Z with (e + 1075)%Z by (rewrite Z.div_add_l by lia; rewrite (Z.div_small (Zpos p - 2 ^ 52)) by lia; lia).
      destruct (Z.eqb_spec (e + 1075) 2047); [lia|]. destruct (Z.eqb_spec (e + 1075) 0); [lia|]. replace (Zpos p - 2 ^ 52 + 2 ^ 52)%Z with (Zpos p) by lia.
      replace (e + 1075 - 1075)%Z with e by lia. repeat split; lia.
    + destruct (Z.ltb_spec (Zpos p) (2 ^ 52)); [|lia]. destruct (S (Zpos p) ltac:(lia)) as (S1 & S2 & S3 & S4). rewrite S1, S2, S3.
      rewrite Z.div_small, Z.mod_small by lia. cbn [Z.eqb]. repeat split; try lia.
Qed.
Lemma bits53_of_fin f : ok53 f -> f64_finite (bits_of_df f) /\ f64_value (bits_of_df f) = val f.
Proof. intros H. destruct (bits53_round_trip f H) as [E F]. split; [exact F|]. rewrite <- (proj2 (of_bits53_fin _ F)), E. reflexivity. Qed.

(** narrowing rounds, widening is exact *)
Lemma to_R prec emax (Hp : Prec_gt_0 prec) (Hm : Prec_lt_emax prec emax) prec' emax' f : fin prec' emax' f -> Rabs (rnd prec emax (val f)) < bpow radix2 emax ->
  fin prec emax (sf_round_to prec emax f) /\ val (sf_round_to prec emax f) = rnd prec emax (val f).
Proof.
  intros [V F] B. destruct f as [s|s| |s p e]; cbn [is_finite_SF] in F; try discriminate.
  - cbn [sf_round_to SF2R]. split; [split; reflexivity|]. symmetry. unfold rnd. apply round_0. typeclasses eauto.
  - cbn [sf_round_to]. assert (E : F2R (Float radix2 (if s then Zneg p else Zpos p) e) = val (S754_finite s p e)) by (cbn [SF2R]; destruct s; reflexivity).
    rewrite <- E in *. now apply (normalize_R prec emax).
Qed.

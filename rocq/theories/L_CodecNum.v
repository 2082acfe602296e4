(** * Numbers through the C-DIS codec (lemmas) *)
From Coq Require Import ZArith List Lia Bool SpecFloat Reals Lra Psatz.
From Flocq Require Import Core BinarySingleNaN.
From Verif Require Import Base CdisBase DisCommon DisHeader DisLists DisSimman DisLogistics DisWarfare DisEntity DisEmission DisRadio DisIff
  CdisRecords CdisBodies1 CdisBodies2 CdisIff CdisPdu CdisCodec1 CdisCodec2 CdisCodec3 SpecFloatValue SpecContent FloatReal FloatBits.
Import ListNotations. Open Scope R_scope.

Definition ulp24 : R := / 16777216.
Definition tiny : R := / 1000000000000000000000000000000000000.
Lemma tiny_pos : 0 < tiny. Proof. unfold tiny. lra. Qed.
Lemma rnd_near x : Rabs (rnd 24 128 x - x) <= Rabs x * ulp24 + tiny.
Proof.
  destruct (rnd_error 24 128 _ x) as (e & d & A & B & ->).
  replace (x * (1 + e) + d - x) with (x * e + d) by ring. eapply Rle_trans; [apply Rabs_triang|]. rewrite Rabs_mult.
  apply Rplus_le_compat.
  - apply Rmult_le_compat_l; [apply Rabs_pos|]. eapply Rle_trans; [exact A|]. unfold ulp24. cbn. lra.
  - eapply Rle_trans; [exact B|]. unfold tiny, SpecFloat.emin. cbn. lra.
Qed.
Definition huge : R := 1000000000000000000000000000000.
Lemma rnd_small x : Rabs x <= huge -> Rabs (rnd 24 128 x) < bpow radix2 128.
Proof.
  intros H. pose proof (rnd_near x) as N. apply Rle_lt_trans with (huge * 2).
  - unfold huge, ulp24, tiny in *. revert H N. unfold Rabs; repeat destruct Rcase_abs; intros; lra.
  - unfold huge. cbn. lra.
Qed.
Lemma mul_near x y : ok24 x -> ok24 y -> Rabs (val x * val y) <= huge ->
  ok24 (sfmul x y) /\ Rabs (val (sfmul x y) - val x * val y) <= Rabs (val x * val y) * ulp24 + tiny.
Proof. intros A B C. destruct (mul_R 24 128 _ _ x y A B (rnd_small _ C)) as [F V]. split; [exact F|]. unfold sfmul. rewrite V. apply rnd_near. Qed.
Lemma div_near x y : ok24 x -> ok24 y -> val y <> 0 -> Rabs (val x / val y) <= huge ->
  ok24 (sfdiv x y) /\ Rabs (val (sfdiv x y) - val x / val y) <= Rabs (val x / val y) * ulp24 + tiny.
Proof. intros A B N C. destruct (div_R 24 128 _ _ x y A B N (rnd_small _ C)) as [F V]. split; [exact F|]. unfold sfdiv. rewrite V. apply rnd_near. Qed.
Lemma add_near x y : ok24 x -> ok24 y -> Rabs (val x + val y) <= huge ->
  ok24 (sfadd x y) /\ Rabs (val (sfadd x y) - (val x + val y)) <= Rabs (val x + val y) * ulp24 + tiny.
Proof. intros A B C. destruct (add_R 24 128 _ _ x y A B (rnd_small _ C)) as [F V]. split; [exact F|]. unfold sfadd. rewrite V. apply rnd_near. Qed.
Lemma sub_near x y : ok24 x -> ok24 y -> Rabs (val x - val y) <= huge ->
  ok24 (sfsub x y) /\ Rabs (val (sfsub x y) - (val x - val y)) <= Rabs (val x - val y) * ulp24 + tiny.
Proof. intros A B C. destruct (sub_R 24 128 _ _ x y A B (rnd_small _ C)) as [F V]. split; [exact F|]. unfold sfsub. rewrite V. apply rnd_near. Qed.
Lemma int_near z : Rabs (IZR z) <= huge -> ok24 (sf_of_int z) /\ Rabs (val (sf_of_int z) - IZR z) <= Rabs (IZR z) * ulp24 + tiny.
Proof.
  intros H. assert (E : F2R (Float radix2 z 0) = IZR z) by (unfold F2R; cbn; ring).
  destruct (normalize_R 24 128 _ _ z 0 false) as [F V]; [rewrite E; apply rnd_small, H|]. split; [exact F|]. unfold sf_of_int. rewrite V, E. apply rnd_near.
Qed.
Lemma int_exact z : (Z.abs z < 2 ^ 24)%Z -> ok24 (sf_of_int z) /\ val (sf_of_int z) = IZR z.
Proof.
  intros H. assert (E : F2R (Float radix2 z 0) = IZR z) by (unfold F2R; cbn; ring).
  assert (X : rnd 24 128 (F2R (Float radix2 z 0)) = F2R (Float radix2 z 0)) by (apply rnd_exact; [exact H|vm_compute; discriminate]).
  destruct (normalize_R 24 128 _ _ z 0 false) as [F V].
  - rewrite X, E. rewrite <- abs_IZR. apply Rlt_le_trans with (IZR (2 ^ 24)); [now apply IZR_lt|]. cbn. lra.
  - split; [exact F|]. unfold sf_of_int. rewrite V, X, E. reflexivity.
Qed.

(** ** Scaling to an integer and back *)
Lemma clip_lip lo hi a b : Rabs (clip lo hi a - clip lo hi b) <= Rabs (a - b).
Proof. unfold clip, Rmax, Rmin. repeat destruct Rle_dec; unfold Rabs; repeat destruct Rcase_abs; lra. Qed.
Lemma IZR_clip lo hi z : (lo <= hi)%Z -> IZR (Z.max lo (Z.min hi z)) = clip (IZR lo) (IZR hi) (IZR z).
Proof.
  intros H. unfold clip. apply IZR_le in H as H'.
  destruct (Z.le_gt_cases hi z) as [A|A].
  - rewrite (Z.min_l hi z) by lia. apply IZR_le in A as A'. rewrite (Rmin_left _ _ A'). rewrite Z.max_r by lia. symmetry. apply Rmax_right. exact H'.
  - rewrite (Z.min_r hi z) by lia. apply IZR_lt in A as A'. rewrite (Rmin_right (IZR hi)) by lra.
    destruct (Z.le_gt_cases lo z) as [B|B]; [apply IZR_le in B as B'|apply IZR_lt in B as B'].
    + rewrite Z.max_r by lia. symmetry. apply Rmax_right. lra.
    + rewrite Z.max_l by lia. symmetry. apply Rmax_left. lra.
Qed.
Lemma clip_in lo hi v : lo <= hi -> lo <= clip lo hi v <= hi.
Proof. intros. unfold clip, Rmax, Rmin. repeat destruct Rle_dec; lra. Qed.
Lemma clip_high lo hi v : lo <= hi -> hi <= v -> clip lo hi v = hi.
Proof. intros. unfold clip, Rmax, Rmin. repeat destruct Rle_dec; lra. Qed.
Lemma clip_low lo hi v : lo <= hi -> v <= lo -> clip lo hi v = lo.
Proof. intros. unfold clip, Rmax, Rmin. repeat destruct Rle_dec; lra. Qed.
Lemma clip_id lo hi v : lo <= v <= hi -> clip lo hi v = v.
Proof. intros. unfold clip, Rmax, Rmin. repeat destruct Rle_dec; lra. Qed.
(** [e]: how far the conversion to an integer is off *)
Definition converts (conv : Z -> Z -> spec_float -> Z) (e : R) : Prop :=
  (forall lo hi f, (lo <= 0 <= hi)%Z -> ok24 f -> exists t, conv lo hi f = Z.max lo (Z.min hi t) /\ Rabs (val f - IZR t) <= e) /\
  (forall lo hi s, conv lo hi (S754_infinity s) = if s then lo else hi).
Lemma cast_converts : converts sf_cast 1.
Proof.
  split; [|reflexivity]. intros lo hi f L F. exists (Ztrunc (val f)). split; [now apply (cast_fin 24 128)|]. apply Rlt_le, trunc_near.
Qed.
Lemma scaled conv e f c lo hi : converts conv e -> 0 <= e <= 1 -> ok24 f -> ok24 c -> (-65536 <= lo <= 0)%Z -> (0 <= hi <= 65536)%Z ->
  let z := conv lo hi (sfmul f c) in (lo <= z <= hi)%Z /\ Rabs (IZR z - clip (IZR lo) (IZR hi) (val f * val c)) <= e + 1 / 200.
Proof.
  intros [CV CI] E F C L H. cbv zeta. unfold sfmul.
  assert (L' : -65536 <= IZR lo <= 0) by (split; apply IZR_le; lia). assert (H' : 0 <= IZR hi <= 65536) by (split; apply IZR_le; lia).
  set (x := val f * val c). pose proof (rnd_near x) as N.
  destruct (Rlt_le_dec (Rabs (rnd 24 128 x)) (bpow radix2 128)) as [S|S].
  - destruct (mul_R 24 128 _ _ f c F C S) as [G V]. destruct (CV lo hi _ ltac:(lia) G) as (t & -> & T). rewrite V in T. fold x in T. split; [lia|].
    rewrite IZR_clip by lia. destruct (Rle_dec (Rabs x) 70000) as [B|B].
    + eapply Rle_trans; [apply clip_lip|]. replace (IZR t - x) with (- (rnd 24 128 x - IZR t) + (rnd 24 128 x - x)) by ring.
      eapply Rle_trans; [apply Rabs_triang|]. rewrite Rabs_Ropp. unfold ulp24, tiny in N. lra.
    + assert (B' : 70000 < Rabs x) by lra. unfold ulp24, tiny in N.
      destruct (Rle_dec 0 x) as [P|P].
      * rewrite (Rabs_right x) in N, B' by lra. revert N T. unfold Rabs. repeat destruct Rcase_abs; intros; rewrite !clip_high by lra; lra.
      * rewrite (Rabs_left x) in N, B' by lra. revert N T. unfold Rabs. repeat destruct Rcase_abs; intros; rewrite !clip_low by lra; lra.
  - rewrite (mul_overflow 24 128 _ _ f c F C S), CI. fold x.
    assert (B : 70000 < Rabs x).
    { destruct (Rlt_le_dec 70000 (Rabs x)) as [|Q]; [assumption|]. exfalso. pose proof (rnd_small x) as M. unfold huge in M. lra. }
    split; [destruct Rlt_bool; lia|]. destruct (Rlt_bool_spec x 0) as [P|P].
    + rewrite Rabs_left in B by lra. rewrite clip_low by lra. rewrite Rminus_diag_eq, Rabs_R0 by reflexivity. lra.
    + rewrite Rabs_right in B by lra. rewrite clip_high by lra. rewrite Rminus_diag_eq, Rabs_R0 by reflexivity. lra.
Qed.
Lemma unscaled z c : (Z.abs z <= 65536)%Z -> ok24 c -> / 1000 <= val c ->
  ok24 (sfdiv (fz z) c) /\ Rabs (val (sfdiv (fz z) c) - IZR z / val c) <= Rabs (IZR z / val c) * ulp24 + tiny.
Proof.
  intros Z C L. destruct (int_exact z ltac:(lia)) as [F V]. unfold fz.
  assert (A : Rabs (IZR z) <= 65536) by (rewrite <- abs_IZR; apply IZR_le; lia).
  destruct (div_near (sf_of_int z) c F C ltac:(lra)) as [G N].
  - rewrite V. unfold Rdiv. rewrite Rabs_mult, Rabs_inv, (Rabs_right (val c)) by lra.
    apply Rle_trans with (65536 * 1000); [|unfold huge; lra]. apply Rmult_le_compat; try apply Rabs_pos; try assumption.
    + left. apply Rinv_0_lt_compat. lra.
    + apply (Rle_trans _ (/ / 1000)); [apply Rinv_le_contravar; lra|rewrite Rinv_inv; lra].
  - split; [exact G|]. rewrite V in N. exact N.
Qed.
(** the whole hop: the number received for the number sent *)
Lemma hop conv e f c lo hi : converts conv e -> 0 <= e <= 1 -> ok24 f -> ok24 c -> (-65536 <= lo <= 0)%Z -> (0 <= hi <= 65536)%Z -> / 1000 <= val c ->
  let o := sfdiv (fz (conv lo hi (sfmul f c))) c in
  ok24 o /\ Rabs (val o - clip (IZR lo / val c) (IZR hi / val c) (val f)) <= (e + 1 / 100) / val c + tiny.
Proof.
  intros CV E F C L H K. cbv zeta. destruct (scaled conv e f c lo hi CV E F C L H) as [R N]. set (z := conv lo hi (sfmul f c)) in *.
  destruct (unscaled z c ltac:(lia) C K) as [G M]. split; [exact G|].
  assert (CL : clip (IZR lo / val c) (IZR hi / val c) (val f) = clip (IZR lo) (IZR hi) (val f * val c) / val c).
  { assert (P : 0 < val c) by lra. assert (I : 0 < / val c) by now apply Rinv_0_lt_compat. unfold clip, Rdiv.
    replace (val f) with (val f * val c * / val c) at 1 by (field; lra).
    unfold Rmax, Rmin. repeat destruct Rle_dec; try reflexivity; exfalso; nra. }
  rewrite CL. replace (val (sfdiv (fz z) c) - clip (IZR lo) (IZR hi) (val f * val c) / val c)
    with ((val (sfdiv (fz z) c) - IZR z / val c) + (IZR z - clip (IZR lo) (IZR hi) (val f * val c)) / val c) by (field; lra).
  eapply Rle_trans; [apply Rabs_triang|].
  assert (I : 0 < / val c) by (apply Rinv_0_lt_compat; lra).
  assert (D : Rabs ((IZR z - clip (IZR lo) (IZR hi) (val f * val c)) / val c) <= (e + 1 / 200) * / val c).
  { unfold Rdiv at 1. rewrite Rabs_mult, (Rabs_right (/ val c)) by lra. apply Rmult_le_compat_r; lra. }
  assert (Z : Rabs (IZR z / val c) <= 65536 * / val c).
  { unfold Rdiv. rewrite Rabs_mult, (Rabs_right (/ val c)) by lra. apply Rmult_le_compat_r; [lra|]. rewrite <- abs_IZR. apply IZR_le. lia. }
  unfold ulp24 in M. unfold Rdiv in *. nra.
Qed.

(** ** Rounding casts *)
Lemma round_val s p e : Rabs (val (S754_finite s p e) - IZR (let a := (if 0 <=? e then Zpos p * 2 ^ e else (2 * Zpos p + 2 ^ (- e)) / (2 * 2 ^ (- e)))%Z in if s then - a else a)) <= / 2.
Proof.
  set (a := (if 0 <=? e then Zpos p * 2 ^ e else (2 * Zpos p + 2 ^ (- e)) / (2 * 2 ^ (- e)))%Z). cbv zeta.
  assert (P : Rabs (IZR (Zpos p) * bpow radix2 e - IZR a) <= / 2).
  { unfold a. destruct (Z.leb_spec 0 e) as [H|H].
    - rewrite mult_IZR. replace (bpow radix2 e) with (IZR (2 ^ e)) by (rewrite <- (IZR_Zpower radix2) by exact H; reflexivity).
      rewrite Rminus_diag_eq, Rabs_R0 by reflexivity. lra.
    - set (k := (2 ^ (- e))%Z). assert (K : (0 < k)%Z) by (apply Z.pow_pos_nonneg; lia).
      replace (bpow radix2 e) with (/ IZR k).
      2:{ unfold k. replace e with (- - e)%Z at 2 by lia. rewrite bpow_opp. f_equal. rewrite <- (IZR_Zpower radix2) by lia. reflexivity. }
      pose proof (Z.div_mod (2 * Zpos p + k) (2 * k) ltac:(lia)) as D. pose proof (Z.mod_pos_bound (2 * Zpos p + k) (2 * k) ltac:(lia)) as M.
      set (q := ((2 * Zpos p + k) / (2 * k))%Z) in *. set (r := ((2 * Zpos p + k) mod (2 * k))%Z) in *.
      assert (B : (0 <= 2 * Zpos p - 2 * k * q + k /\ 2 * Zpos p - 2 * k * q < k)%Z) by lia. destruct B as [B1 B2]. apply IZR_le in B1. apply IZR_lt in B2.
      rewrite plus_IZR, minus_IZR, !mult_IZR in B1; rewrite minus_IZR, !mult_IZR in B2. apply IZR_lt in K. set (P := IZR (Zpos p)) in *. set (Q := IZR q) in *. set (X := IZR k) in *.
      replace (P * / X - Q) with ((2 * P - 2 * X * Q) * / (2 * X)) by (field; lra). rewrite Rabs_mult, (Rabs_right (/ (2 * X))) by (left; apply Rinv_0_lt_compat; lra).
      apply Rle_trans with (X * / (2 * X)); [|right; field; lra]. apply Rmult_le_compat_r; [left; apply Rinv_0_lt_compat; lra|]. apply Rabs_le. lra. }
  cbn [SF2R]. unfold F2R. cbn [Fnum Fexp]. destruct s; cbn [cond_Zopp]; [|exact P].
  change (Zneg p) with (- Zpos p)%Z. rewrite !opp_IZR. rewrite <- Rabs_Ropp. replace (- (- IZR (Zpos p) * bpow radix2 e - - IZR a)) with (IZR (Zpos p) * bpow radix2 e - IZR a) by ring. exact P.
Qed.
Lemma round_converts : converts sf_round_cast (/ 2).
Proof.
  split; [|reflexivity]. intros lo hi f L [V F]. destruct f as [s|s| |s p e]; cbn [is_finite_SF] in F; try discriminate.
  - exists 0%Z. cbn [sf_round_cast SF2R]. split; [lia|]. rewrite Rminus_diag_eq, Rabs_R0 by reflexivity. lra.
  - eexists. split; [cbn [sf_round_cast]; reflexivity|]. apply round_val.
Qed.

(** ** The scales *)
Ltac scale := unfold fin; split; [split; vm_compute; reflexivity|]; match goal with |- context [SF2R radix2 ?c] => let v := eval vm_compute in c in change c with v end; cbn [SF2R]; unfold F2R; cbn; lra.
Lemma ten_ok : ok24 (fz 10) /\ val (fz 10) = 10. Proof. scale. Qed.
Lemma hundred_ok : ok24 (fz 100) /\ val (fz 100) = 100. Proof. scale. Qed.
Lemma orientation_ok : ok24 orientation_scale /\ 1303.47 <= val orientation_scale <= 1303.5. Proof. scale. Qed.
Lemma beam_ok : ok24 beam_scale /\ 4.13 <= val beam_scale <= 4.14. Proof. scale. Qed.
Lemma sync_ok : ok24 sync_scale /\ 10.22 <= val sync_scale <= 10.24. Proof. scale. Qed.
Lemma angular_ok : ok24 angular_scale /\ 0.636 <= val angular_scale <= 0.637. Proof. scale. Qed.
Lemma degrees_ok : ok24 degrees_per_radian /\ 57.29 <= val degrees_per_radian <= 57.3. Proof. scale. Qed.
Lemma two_pi_ok : ok24 two_pi /\ val two_pi = 13176795 / 2097152. Proof. scale. Qed.

Lemma near_bits f v e : ok24 f -> Rabs (val f - v) <= e -> f32_finite (bits_of_sf f) /\ within e (f32_value (bits_of_sf f)) v.
Proof. intros A B. destruct (bits_of_fin f A) as [F V]. split; [exact F|]. unfold within. now rewrite V. Qed.
Lemma decimeters b : carried 0.1011 (-3276.8) 3276.7 b (from_decimeters (to_decimeters b)).
Proof.
  intros F. destruct (of_bits_fin b F) as [O V]. destruct ten_ok as [T TV].
  destruct (hop sf_cast 1 (sf_of_bits b) (fz 10) (-32768) 32767 cast_converts ltac:(lra) O T ltac:(lia) ltac:(lia) ltac:(rewrite TV; lra)) as [G N].
  rewrite TV, V in N. unfold from_decimeters, to_decimeters, f32_as_i16. apply near_bits; [exact G|].
  replace (-3276.8) with (-32768 / 10) by lra. replace 3276.7 with (32767 / 10) by lra. unfold tiny in N. lra.
Qed.
Lemma beam_angle b : arrives 0.1235 (-100) 100 b (dec_beam_angle (enc_beam_angle b)).
Proof.
  intros F R. destruct (of_bits_fin b F) as [O V]. destruct beam_ok as [T TV].
  destruct (hop sf_round_cast (/ 2) (sf_of_bits b) beam_scale (-32768) 32767 round_converts ltac:(lra) O T ltac:(lia) ltac:(lia) ltac:(lra)) as [G N].
  rewrite V in N. unfold dec_beam_angle, enc_beam_angle. apply near_bits; [exact G|].
  assert (I : 0 < / val beam_scale <= / 4.13) by (split; [apply Rinv_0_lt_compat; lra|apply Rinv_le_contravar; lra]).
  assert (J : / 4.14 <= / val beam_scale) by (apply Rinv_le_contravar; lra).
  rewrite clip_id in N by (unfold Rdiv; lra). unfold tiny, Rdiv in *. lra.
Qed.
Lemma sync_percent b : arrives 0.05 0 100 b (bits_of_sf (sfdiv (fz (sf_round_cast 0 65535 (sfmul (sf_of_bits b) sync_scale))) sync_scale)).
Proof.
  intros F R. destruct (of_bits_fin b F) as [O V]. destruct sync_ok as [T TV].
  destruct (hop sf_round_cast (/ 2) (sf_of_bits b) sync_scale 0 65535 round_converts ltac:(lra) O T ltac:(lia) ltac:(lia) ltac:(lra)) as [G N].
  rewrite V in N. apply near_bits; [exact G|].
  assert (I : 0 < / val sync_scale <= / 10.22) by (split; [apply Rinv_0_lt_compat; lra|apply Rinv_le_contravar; lra]).
  assert (J : / 10.24 <= / val sync_scale) by (apply Rinv_le_contravar; lra).
  rewrite clip_id in N by (unfold Rdiv; lra). unfold tiny, Rdiv in *. lra.
Qed.
Lemma rate b : arrives 0.0279 (-50) 50 b (dec_rate (enc_rate b)).
Proof.
  intros F R. destruct (of_bits_fin b F) as [O V]. destruct degrees_ok as [D DV], angular_ok as [A AV].
  assert (B : Rabs (val (sf_of_bits b) * val degrees_per_radian) <= 3000) by (rewrite V; rewrite Rabs_mult; rewrite (Rabs_right (val degrees_per_radian)) by lra; assert (Rabs (f32_value b) <= 50) by (apply Rabs_le; lra); assert (0 <= Rabs (f32_value b)) by apply Rabs_pos; nra).
  destruct (mul_near _ _ O D) as [G N]; [unfold huge; lra|].
  set (x := sfmul (sf_of_bits b) degrees_per_radian) in *.
  destruct (hop sf_cast 1 x angular_scale (-32768) 32767 cast_converts ltac:(lra) G A ltac:(lia) ltac:(lia) ltac:(lra)) as [G2 N2].
  set (y := sfdiv (fz (sf_cast (-32768) 32767 (sfmul x angular_scale))) angular_scale) in *.
  assert (I : / 0.637 <= / val angular_scale <= / 0.636) by (split; apply Rinv_le_contravar; lra).
  assert (X : Rabs (val x) <= 3001).
  { replace (val x) with ((val x - val (sf_of_bits b) * val degrees_per_radian) + val (sf_of_bits b) * val degrees_per_radian) by ring.
    eapply Rle_trans; [apply Rabs_triang|]. unfold ulp24, tiny in N. lra. }
  apply Rabs_le_inv in X. rewrite clip_id in N2 by (unfold Rdiv; nra).
  assert (Y : Rabs (val y - val x) <= 1.5883) by (unfold tiny, Rdiv in N2; lra).
  assert (Y' : Rabs (val y) <= 3003) by (apply Rabs_le_inv in Y; apply Rabs_le; lra).
  assert (J : / 57.3 <= / val degrees_per_radian <= / 57.29) by (split; apply Rinv_le_contravar; lra).
  assert (Q : Rabs (val y / val degrees_per_radian) <= 60).
  { unfold Rdiv. rewrite Rabs_mult, (Rabs_right (/ val degrees_per_radian)) by lra. assert (0 <= Rabs (val y)) by apply Rabs_pos. nra. }
  destruct (div_near y degrees_per_radian G2 D ltac:(lra)) as [G3 N3]; [unfold huge; lra|].
  unfold dec_rate, enc_rate, f32_as_i16. fold x. fold y. apply near_bits; [exact G3|].
  replace (val (sfdiv y degrees_per_radian) - f32_value b) with
    ((val (sfdiv y degrees_per_radian) - val y / val degrees_per_radian) + ((val y - val x) * / val degrees_per_radian + (val x - val (sf_of_bits b) * val degrees_per_radian) * / val degrees_per_radian))
    by (rewrite V; field; lra).
  eapply Rle_trans; [apply Rabs_triang|]. eapply Rle_trans; [apply Rplus_le_compat_l; apply Rabs_triang|].
  rewrite !Rabs_mult, (Rabs_right (/ val degrees_per_radian)) by lra.
  assert (Rabs (val y - val x) * / val degrees_per_radian <= 1.5883 * / 57.29) by (apply Rmult_le_compat; try apply Rabs_pos; lra).
  assert (Rabs (val x - val (sf_of_bits b) * val degrees_per_radian) * / val degrees_per_radian <= 0.0002 * / 57.29) by (apply Rmult_le_compat; try apply Rabs_pos; unfold ulp24, tiny in N; lra).
  unfold ulp24, tiny in N3. lra.
Qed.

(** ** Angles *)
Lemma shift_int p e m : (m <= e)%Z -> IZR (p * 2 ^ (e - m)) * bpow radix2 m = IZR p * bpow radix2 e.
Proof.
  intros H. rewrite mult_IZR. replace (IZR (2 ^ (e - m))) with (bpow radix2 (e - m)) by (rewrite <- (IZR_Zpower radix2) by lia; reflexivity).
  rewrite Rmult_assoc, <- bpow_plus. do 2 f_equal. lia.
Qed.
Lemma rnd_mono x y : x <= y -> rnd 24 128 x <= rnd 24 128 y.
Proof. intros H. unfold rnd. apply round_le; [typeclasses eauto|typeclasses eauto|exact H]. Qed.
Lemma rnd_0 : rnd 24 128 0 = 0.
Proof. unfold rnd. apply round_0. typeclasses eauto. Qed.
Lemma rnd_turn x : Rabs x <= 13176795 / 2097152 -> Rabs (rnd 24 128 x) <= 13176795 / 2097152.
Proof.
  intros H. apply Rabs_le_inv in H.
  assert (E : F2R (Float radix2 13176795 (-21)) = 13176795 / 2097152) by (unfold F2R; cbn; lra).
  assert (E' : F2R (Float radix2 (-13176795) (-21)) = - (13176795 / 2097152)) by (unfold F2R; cbn; lra).
  pose proof (rnd_exact 24 128 13176795 (-21) ltac:(lia) ltac:(vm_compute; discriminate)) as A. rewrite E in A.
  pose proof (rnd_exact 24 128 (-13176795) (-21) ltac:(lia) ltac:(vm_compute; discriminate)) as B. rewrite E' in B.
  apply Rabs_le. split; [rewrite <- B|rewrite <- A]; apply rnd_mono; lra.
Qed.
Lemma rem_near a : ok24 a -> exists k : Z, ok24 (sf_rem 24 128 a two_pi) /\ Rabs (val (sf_rem 24 128 a two_pi) - (val a + IZR k * turn)) <= 0.0000004 /\
  Rabs (val (sf_rem 24 128 a two_pi)) <= turn /\ (0 <= val a -> 0 <= val (sf_rem 24 128 a two_pi)).
Proof.
  intros O. destruct two_pi_ok as [TO TV]. unfold turn in *.
  assert (TE : two_pi = S754_finite false 13176795 (-21)) by (vm_compute; reflexivity). rewrite TE in *.
  destruct a as [s|s| |s p e]; try (destruct O; discriminate).
  - exists 0%Z. cbn [sf_rem SF2R]. split; [exact O|]. rewrite Rmult_0_l, !Rplus_0_r, Rminus_diag_eq, Rabs_R0 by reflexivity. lra.
  - unfold sf_rem. set (m := Z.min e (-21)). assert (M1 : (m <= e)%Z) by lia. assert (M2 : (m <= -21)%Z) by lia.
    set (A := (Zpos p * 2 ^ (e - m))%Z). set (Q := (13176795 * 2 ^ (-21 - m))%Z).
    assert (Qp : (0 < Q)%Z) by (apply Z.mul_pos_pos; [lia|apply Z.pow_pos_nonneg; lia]).
    pose proof (Z.div_mod A Q ltac:(lia)) as D. pose proof (Z.mod_pos_bound A Q Qp) as B. set (k := (A / Q)%Z) in *. set (r := (A mod Q)%Z) in *.
    set (sg := (if s then -1 else 1)%Z).
    assert (EA : IZR A * bpow radix2 m = IZR (Zpos p) * bpow radix2 e) by (apply shift_int; exact M1).
    assert (EQ : IZR Q * bpow radix2 m = 13176795 / 2097152) by (unfold Q; rewrite (shift_int 13176795 (-21) m M2); cbn; lra).
    assert (ER : IZR r * bpow radix2 m = IZR (Zpos p) * bpow radix2 e - IZR k * (13176795 / 2097152)).
    { replace r with (A - Q * k)%Z by lia. rewrite minus_IZR, mult_IZR, <- EA, <- EQ. ring. }
    assert (SG : IZR sg = 1 /\ s = false \/ IZR sg = -1 /\ s = true) by (unfold sg; destruct s; auto).
    assert (VA : val (S754_finite s p e) = IZR sg * (IZR (Zpos p) * bpow radix2 e)).
    { cbn [SF2R]. unfold F2R, sg. cbn [Fnum Fexp]. destruct s; cbn [cond_Zopp]; [change (Zneg p) with (- Zpos p)%Z; rewrite opp_IZR|]; ring. }
    assert (P0 : 0 < bpow radix2 m) by apply bpow_gt_0.
    assert (R0 : 0 <= IZR r * bpow radix2 m < 13176795 / 2097152).
    { rewrite <- EQ. split; [apply Rmult_le_pos; [apply IZR_le; lia|lra]|apply Rmult_lt_compat_r; [lra|apply IZR_lt; lia]]. }
    assert (F : F2R (Float radix2 (sg * r) m) = IZR sg * (IZR r * bpow radix2 m)) by (unfold F2R; cbn [Fnum Fexp]; rewrite mult_IZR; ring).
    set (x := F2R (Float radix2 (sg * r) m)) in *.
    assert (X : Rabs x <= 13176795 / 2097152) by (rewrite F; apply Rabs_le; destruct SG as [[-> _]|[-> _]]; lra).
    pose proof (rnd_near x) as N.
    destruct (normalize_R 24 128 _ _ (sg * r) m s) as [G V]; [apply rnd_small; fold x; unfold huge; lra|]. fold x in V. fold (13176795 / 2097152) in *.
    change (Z.pos 13176795) with 13176795%Z. fold A Q r sg.
    exists (if s then k else - k)%Z. split; [exact G|]. rewrite V. split; [|split].
    + rewrite VA. replace (IZR (if s then k else - k)%Z) with (- IZR sg * IZR k) by (destruct SG as [[-> ->]|[-> ->]]; rewrite ?opp_IZR; ring).
      replace (IZR sg * (IZR (Z.pos p) * bpow radix2 e) + - IZR sg * IZR k * (13176795 / 2097152)) with x by (rewrite F, ER; ring).
      unfold ulp24, tiny in N. lra.
    + apply rnd_turn, X.
    + intros Pa. rewrite VA in Pa. assert (0 < IZR (Z.pos p) * bpow radix2 e) by (apply Rmult_lt_0_compat; [apply IZR_lt; lia|apply bpow_gt_0]).
      destruct SG as [[S1 _]|[S1 _]]; rewrite S1 in Pa, F; [|lra]. rewrite Rmult_1_l in F.
      unfold rnd. rewrite <- (round_0 radix2 (SpecFloat.fexp 24 128) ZnearestE). apply round_le; [typeclasses eauto|typeclasses eauto|]. rewrite F. apply R0.
Qed.
Lemma pi_ok : ok24 sf_pi /\ val sf_pi = 13176795 / 4194304. Proof. scale. Qed.
Lemma normalize_near a : ok24 a -> exists k : Z, ok24 (normalize_radians a) /\ Rabs (val (normalize_radians a) - (val a + IZR k * turn)) <= 0.000003 /\
  Rabs (val (normalize_radians a)) <= 3.141594.
Proof.
  intros O. destruct two_pi_ok as [TO TV], pi_ok as [PO PV]. unfold normalize_radians.
  destruct (rem_near a O) as (k1 & O1 & N1 & B1 & _). set (r1 := sf_rem 24 128 a two_pi) in *.
  apply Rabs_le_inv in N1. apply Rabs_le_inv in B1.
  assert (T : val two_pi = turn) by exact TV.
  assert (A2 : Rabs (val r1 + val two_pi) <= 12.6) by (rewrite T; unfold turn in *; apply Rabs_le; lra).
  destruct (add_R 24 128 _ _ r1 two_pi O1 TO) as [O2 V2]; [apply rnd_small; unfold huge; lra|].
  destruct (add_near r1 two_pi O1 TO) as [_ N2]; [unfold huge; lra|]. fold (sfadd r1 two_pi) in *. set (s := sfadd r1 two_pi) in *.
  change (SFadd 24 128 r1 two_pi) with s in *.
  assert (S0 : 0 <= val s) by (rewrite V2, <- rnd_0; apply rnd_mono; rewrite T; lra).
  assert (N2' : Rabs (val s - (val r1 + val two_pi)) <= 0.0000008) by (unfold ulp24, tiny in N2; lra). clear N2. apply Rabs_le_inv in N2'. rewrite T in N2'.
  destruct (rem_near s O2) as (k2 & O3 & N3 & B3 & P3). set (r2 := sf_rem 24 128 s two_pi) in *.
  apply Rabs_le_inv in N3. apply Rabs_le_inv in B3. specialize (P3 S0).
  rewrite (ltb_R 24 128 sf_pi r2 PO O3), PV.
  destruct (Rlt_bool_spec (13176795 / 4194304) (val r2)) as [C|C].
  - destruct (sub_near r2 two_pi O3 TO) as [O4 N4]; [rewrite T; unfold huge, turn in *; apply Rabs_le; lra|]. rewrite T in N4.
    assert (A4 : Rabs (val r2 - turn) <= 3.15) by (unfold turn in *; apply Rabs_le; lra).
    assert (N4' : Rabs (val (sfsub r2 two_pi) - (val r2 - turn)) <= 0.0000002) by (unfold ulp24, tiny in N4; lra). clear N4. apply Rabs_le_inv in N4'.
    exists (k1 + k2)%Z. split; [exact O4|]. rewrite plus_IZR. split; apply Rabs_le; unfold turn in *; lra.
  - exists (k1 + k2 + 1)%Z. split; [exact O3|]. rewrite !plus_IZR. split; apply Rabs_le; unfold turn in *; lra.
Qed.
Lemma angle b : same_angle 0.00078 b (dec_angle (enc_angle b)) /\ (f32_finite b -> (-4096 < enc_angle b < 4096)%Z).
Proof.
  split.
  - intros F. destruct (of_bits_fin b F) as [O V]. destruct orientation_ok as [T TV].
    destruct (normalize_near _ O) as (k & O1 & N1 & B1). set (x := normalize_radians (sf_of_bits b)) in *.
    destruct (hop sf_cast 1 x orientation_scale (-32768) 32767 cast_converts ltac:(lra) O1 T ltac:(lia) ltac:(lia) ltac:(lra)) as [G N].
    unfold dec_angle, enc_angle, f32_as_i16. fold x. set (y := sfdiv (fz (sf_cast (-32768) 32767 (sfmul x orientation_scale))) orientation_scale) in *.
    assert (I : 0 < / val orientation_scale <= / 1303.47) by (split; [apply Rinv_0_lt_compat; lra|apply Rinv_le_contravar; lra]).
    assert (J : / 1303.5 <= / val orientation_scale) by (apply Rinv_le_contravar; lra).
    apply Rabs_le_inv in B1. rewrite clip_id in N by (unfold Rdiv; lra). unfold tiny, Rdiv in N. apply Rabs_le_inv in N. apply Rabs_le_inv in N1.
    destruct (bits_of_fin y G) as [Fy Vy]. split; [exact Fy|]. exists k. unfold within. rewrite Vy, <- V. apply Rabs_le. lra.
  - intros F. destruct (of_bits_fin b F) as [O V]. destruct orientation_ok as [T TV].
    destruct (normalize_near _ O) as (k & O1 & N1 & B1). set (x := normalize_radians (sf_of_bits b)) in *.
    unfold enc_angle, f32_as_i16. fold x.
    assert (TV' : val orientation_scale <= 1303.48) by (clear; match goal with |- context [SF2R radix2 ?c] => let v := eval vm_compute in c in change c with v end; cbn [SF2R]; unfold F2R; cbn; lra).
    assert (M : Rabs (val x * val orientation_scale) <= 4095.01).
    { rewrite Rabs_mult, (Rabs_right (val orientation_scale)) by lra. assert (0 <= Rabs (val x)) by apply Rabs_pos. nra. }
    destruct (mul_near x orientation_scale O1 T) as [G N]; [unfold huge; lra|]. rewrite (cast_fin 24 128 _ (-32768) 32767 ltac:(lia) G).
    set (y := val (sfmul x orientation_scale)) in *. unfold ulp24, tiny in N. pose proof (trunc_near y) as Q.
    assert (N' : Rabs (y - val x * val orientation_scale) <= 0.01) by lra. clear N. rename N' into N.
    apply Rabs_lt_inv in Q. apply Rabs_le_inv in N. apply Rabs_le_inv in M.
    assert (Ztrunc y < 4096)%Z.
    { apply lt_IZR. destruct (Rle_dec 0 y) as [Y|Y]; [rewrite Ztrunc_floor by exact Y; pose proof (Zfloor_lb y); lra|lra]. }
    assert (-4096 < Ztrunc y)%Z.
    { apply lt_IZR. destruct (Rle_dec 0 y) as [Y|Y]; [lra|]. rewrite Ztrunc_ceil by lra. pose proof (Zceil_ub y). lra. }
    lia.
Qed.

(** ** Entity coordinates *)
Lemma sign_bits b : f32_finite b -> (f32_positive b = true -> 0 <= f32_value b) /\ (f32_positive b = false -> f32_value b <= 0).
Proof.
  intros _. unfold f32_value, f32_positive. set (x := if (f32_exponent b =? 0)%Z then _ else _).
  assert (P : 0 <= x).
  { unfold x, f32_fraction, f32_exponent. assert (Q : forall k, 0 <= powerRZ 2 k) by (intro; apply powerRZ_le; lra).
    pose proof (Z.mod_pos_bound b (2 ^ 23) ltac:(lia)). destruct (_ =? 0)%Z; apply Rmult_le_pos; auto; apply IZR_le; lia. }
  destruct (Z.ltb_spec b (2 ^ 31)), (Z.leb_spec (2 ^ 31) b); try lia; split; intros; try discriminate; lra.
Qed.
Lemma to_i16_cast f pos : ok24 f -> (pos = true -> 0 <= val f) -> (pos = false -> val f <= 0) -> f32_to_i16 f pos = sf_cast (-32768) 32767 f.
Proof.
  intros O P N. destruct f as [s|s| |s p e]; try reflexivity; try (destruct O as [_ O]; discriminate O).
  unfold f32_to_i16, sf_from. rewrite (cast_fin 24 128 _ (-32768) 32767 ltac:(lia) O). rewrite <- trunc_val.
  set (t := sf_trunc s p e) in *. assert (T : t = Ztrunc (val (S754_finite s p e))) by apply trunc_val.
  destruct (Z.leb_spec (-32768) t), (Z.leb_spec t 32767); cbn [andb]; try lia.
  - destruct pos; [lia|]. specialize (N eq_refl). assert (t <= 0)%Z; [|lia]. rewrite T, Ztrunc_ceil by exact N. apply Zceil_glb. exact N.
  - destruct pos; [|lia]. specialize (P eq_refl). assert (0 <= t)%Z; [|lia]. rewrite T, Ztrunc_floor by exact P. apply Zfloor_lub. exact P.
Qed.
Lemma centimetres b : f32_finite b -> -32768 <= f32_value b <= 32767 -> carried 0.0102 (-327.68) 327.67 b (dec_component 0 (enc_component 100 b)).
Proof.
  intros F R _. destruct (of_bits_fin b F) as [O V]. destruct hundred_ok as [T TV]. destruct (sign_bits b F) as [S1 S2].
  unfold enc_component. change (100 =? 1)%Z with false. cbv iota. unfold dec_component. change (0 =? 0)%Z with true. cbv iota.
  assert (SM : Rabs (val (sf_of_bits b) * val (fz 100)) <= huge) by (rewrite TV, V; unfold huge; apply Rabs_le; lra).
  destruct (mul_R 24 128 _ _ (sf_of_bits b) (fz 100) O T (rnd_small _ SM)) as [MO MV].
  rewrite to_i16_cast.
  - destruct (hop sf_cast 1 (sf_of_bits b) (fz 100) (-32768) 32767 cast_converts ltac:(lra) O T ltac:(lia) ltac:(lia) ltac:(rewrite TV; lra)) as [G N].
    rewrite TV, V in N. apply near_bits; [exact G|].
    replace (-327.68) with (-32768 / 100) by lra. replace 327.67 with (32767 / 100) by lra. unfold tiny in N. lra.
  - exact MO.
  - intros P. unfold sfmul. rewrite MV, <- rnd_0. apply rnd_mono. rewrite TV, V. specialize (S1 P). lra.
  - intros P. unfold sfmul. rewrite MV, <- rnd_0. apply rnd_mono. rewrite TV, V. specialize (S2 P). lra.
Qed.
Lemma whole_metres b : carried 1 (-32768) 32767 b (dec_component 1 (enc_component 1 b)).
Proof.
  intros F. destruct (of_bits_fin b F) as [O V]. destruct (sign_bits b F) as [S1 S2].
  unfold enc_component, dec_component. change (1 =? 1)%Z with true. change (1 =? 0)%Z with false. cbv iota.
  rewrite to_i16_cast by (try exact O; rewrite V; assumption). rewrite (cast_fin 24 128 _ (-32768) 32767 ltac:(lia) O), V.
  unfold f32_of_int. set (z := Z.max _ _). destruct (int_exact z ltac:(lia)) as [G W]. apply near_bits; [exact G|]. rewrite W. unfold z. rewrite IZR_clip by lia.
  eapply Rle_trans; [apply clip_lip|]. rewrite Rabs_minus_sym. left. apply trunc_near.
Qed.
Lemma i16_range b : f32_finite b -> (in_i16_range b = true <-> -32768 <= f32_value b <= 32767).
Proof.
  intros F. destruct (of_bits_fin b F) as [O V]. unfold in_i16_range. fold (fz (-32768)) (fz 32767).
  destruct (int_exact (-32768) ltac:(lia)) as [A A'], (int_exact 32767 ltac:(lia)) as [B B'].
  rewrite (leb_R 24 128 (fz (-32768)) (sf_of_bits b) A O), (leb_R 24 128 (sf_of_bits b) (fz 32767) O B). unfold fz. rewrite A', B', V.
  rewrite andb_true_iff. split; intros [X Y]; split; try (destruct (Rle_bool_spec (-32768) (f32_value b)); [assumption|discriminate]);
    try (destruct (Rle_bool_spec (f32_value b) 32767); [assumption|discriminate]); now apply Rle_bool_true.
Qed.
(** [each P v w]: the three components *)
Lemma coordinates v : f32_finite (v_1 v) -> f32_finite (v_2 v) -> f32_finite (v_3 v) ->
  let w := dec_ecv (fst (enc_ecv v)) (snd (enc_ecv v)) in
  let near := forall b, In b [v_1 v; v_2 v; v_3 v] -> -32768 <= f32_value b <= 32767 in
  (near -> carried 0.0102 (-327.68) 327.67 (v_1 v) (v_1 w) /\ carried 0.0102 (-327.68) 327.67 (v_2 v) (v_2 w) /\ carried 0.0102 (-327.68) 327.67 (v_3 v) (v_3 w)) /\
  (~ near -> carried 1 (-32768) 32767 (v_1 v) (v_1 w) /\ carried 1 (-32768) 32767 (v_2 v) (v_2 w) /\ carried 1 (-32768) 32767 (v_3 v) (v_3 w)).
Proof.
  intros F1 F2 F3 w near. pose proof (i16_range _ F1) as I1. pose proof (i16_range _ F2) as I2. pose proof (i16_range _ F3) as I3.
  assert (NR : near <-> in_i16_range (v_1 v) = true /\ in_i16_range (v_2 v) = true /\ in_i16_range (v_3 v) = true).
  { rewrite I1, I2, I3. unfold near. split; [intros H; repeat split; apply H; cbn; auto|]. intros H b [<-|[<-|[<-|[]]]]; tauto. }
  unfold w, enc_ecv. split.
  - intros N. pose proof (proj1 NR N) as (-> & -> & ->). cbn [negb orb fst snd dec_ecv v_1 v_2 v_3 CEntityCoordinateVector_x CEntityCoordinateVector_y CEntityCoordinateVector_z].
    repeat split; apply centimetres; auto; apply N; cbn; auto.
  - intros N. assert (C : (negb (in_i16_range (v_1 v)) || negb (in_i16_range (v_2 v)) || negb (in_i16_range (v_3 v)))%bool = true).
    { destruct (in_i16_range (v_1 v)), (in_i16_range (v_2 v)), (in_i16_range (v_3 v)); try reflexivity. exfalso. apply N, NR. auto. }
    rewrite C. cbn [fst snd dec_ecv v_1 v_2 v_3 CEntityCoordinateVector_x CEntityCoordinateVector_y CEntityCoordinateVector_z].
    split; [|split]; apply whole_metres.
Qed.

(** ** Floats with a decimal exponent *)
Lemma pow10_ok j : (j <= 5)%nat -> ok24 (pow10 24 128 (Z.of_nat j)) /\ val (pow10 24 128 (Z.of_nat j)) = 10 ^ j.
Proof.
  intros H. do 6 (destruct j as [|j]; [unfold fin; split; [split; vm_compute; reflexivity|]; match goal with |- SF2R radix2 ?c = _ => let v := eval vm_compute in c in change c with v end; cbn [SF2R]; unfold F2R; cbn; lra|]). lia.
Qed.
(** the facts about a binary format that the two lemmas below use; the errors are those of single precision *)
Record Facts (prec emax : Z) : Prop := {
  fa_int : forall z, (Z.abs z < 2 ^ 24)%Z -> fin prec emax (SpecFloat.binary_normalize prec emax z 0 false) /\ val (SpecFloat.binary_normalize prec emax z 0 false) = IZR z;
  fa_mul : forall x y, fin prec emax x -> fin prec emax y -> Rabs (val x * val y) <= huge ->
    fin prec emax (SFmul prec emax x y) /\ Rabs (val (SFmul prec emax x y) - val x * val y) <= Rabs (val x * val y) * ulp24 + tiny;
  fa_div : forall x y, fin prec emax x -> fin prec emax y -> val y <> 0 -> Rabs (val x / val y) <= huge ->
    fin prec emax (SFdiv prec emax x y) /\ Rabs (val (SFdiv prec emax x y) - val x / val y) <= Rabs (val x / val y) * ulp24 + tiny;
  fa_ltb : forall x y, fin prec emax x -> fin prec emax y -> SFltb x y = Rlt_bool (val x) (val y);
  fa_pow : forall j, (j <= 5)%nat -> fin prec emax (pow10 prec emax (Z.of_nat j)) /\ val (pow10 prec emax (Z.of_nat j)) = 10 ^ j }.
Lemma facts24 : Facts 24 128.
Proof. constructor; [exact int_exact|exact mul_near|exact div_near|intros; now apply (ltb_R 24 128)|exact pow10_ok]. Qed.
Lemma rnd_near53 x : Rabs (rnd 53 1024 x - x) <= Rabs x * ulp24 + tiny.
Proof.
  destruct (rnd_error 53 1024 _ x) as (e & d & A & B & ->).
  replace (x * (1 + e) + d - x) with (x * e + d) by ring. eapply Rle_trans; [apply Rabs_triang|]. rewrite Rabs_mult.
  apply Rplus_le_compat.
  - apply Rmult_le_compat_l; [apply Rabs_pos|]. eapply Rle_trans; [exact A|]. unfold ulp24. cbn. lra.
  - eapply Rle_trans; [exact B|]. unfold tiny, SpecFloat.emin. cbn. lra.
Qed.
Section Decimal.
Variables prec emax : Z.
Hypothesis FA : Facts prec emax.
Lemma scaling M n f e : (1000 <= M < 2 ^ 24)%Z -> (n <= 10)%nat -> fin prec emax f -> 0 <= val f <= huge ->
  let (r, e') := scale_loop prec emax M n f e in
  exists j, (j <= n)%nat /\ e' = (e + Z.of_nat j)%Z /\ fin prec emax r /\ 0 <= val r /\ Rabs (val r * 10 ^ j - val f) <= 4 * INR j * ulp24 * val f /\
    (val f * (1 + 4 * INR n * ulp24) <= IZR M * 10 ^ n -> val r <= IZR M) /\ (j = 0%nat -> r = f) /\ (j <> 0%nat -> IZR M / 10 * 0.999 <= val r).
Proof.
  intros HM. revert f e. assert (M0 : 1000 <= IZR M) by (apply IZR_le; lia). assert (M1 : IZR M <= 16777216) by (apply IZR_le; lia).
  destruct (fa_int _ _ FA M ltac:(lia)) as [MO MV]. destruct (fa_int _ _ FA 10 ltac:(lia)) as [TO TV].
  induction n as [|n IH]; intros f e Hn O B.
  { cbn [scale_loop]. exists 0%nat. cbn [pow INR Z.of_nat]. rewrite Z.add_0_r. rewrite !Rmult_1_r. rewrite Rminus_diag_eq, Rabs_R0 by reflexivity.
    repeat split; try lia; try (apply O); try lra; try congruence. }
  cbn [scale_loop]. change (SpecFloat.binary_normalize prec emax M 0 false) with (SpecFloat.binary_normalize prec emax M 0 false).
  rewrite (fa_ltb _ _ FA _ _ MO O), MV. destruct (Rlt_bool_spec (IZR M) (val f)) as [L|L].
  - set (g := SFdiv prec emax f (SpecFloat.binary_normalize prec emax 10 0 false)).
    destruct (fa_div _ _ FA f (SpecFloat.binary_normalize prec emax 10 0 false) O TO ltac:(lra)) as [GO GN]; [rewrite TV; unfold huge in *; apply Rabs_le; lra|].
    rewrite TV in GN. fold g in GO, GN.
    assert (P : 0 <= val f / 10) by lra. rewrite (Rabs_right (val f / 10)) in GN by lra.
    assert (GN' : Rabs (val g * 10 - val f) <= 2 * ulp24 * val f).
    { replace (val g * 10 - val f) with ((val g - val f / 10) * 10) by field. rewrite Rabs_mult, (Rabs_right 10) by lra. unfold ulp24, tiny in *. lra. }
    apply Rabs_le_inv in GN'.
    assert (GB : 0 <= val g <= huge) by (unfold ulp24, huge in *; lra).
    specialize (IH g (e + 1)%Z ltac:(lia) GO GB). destruct (scale_loop prec emax M n g (e + 1)) as [r e'].
    destruct IH as (j & Hj & -> & RO & R0 & RN & RM & Z0 & Z1). exists (S j). split; [lia|]. split; [lia|]. split; [exact RO|]. split; [exact R0|].
    assert (J : 0 <= INR j <= 10) by (split; [apply pos_INR|]; replace 10 with (INR 10) by (cbn; lra); apply le_INR; lia).
    split; [|split; [|split; [discriminate|intros _]]].
    + replace (val r * 10 ^ S j - val f) with ((val r * 10 ^ j - val g) * 10 + (val g * 10 - val f)) by (cbn [pow]; ring).
      eapply Rle_trans; [apply Rabs_triang|]. rewrite Rabs_mult, (Rabs_right 10) by lra. rewrite S_INR.
      assert (Rabs (val g * 10 - val f) <= 2 * ulp24 * val f) by (apply Rabs_le; exact GN').
      assert (val g * 10 <= (1 + 2 * ulp24) * val f) by lra.
      assert (4 * INR j * ulp24 * (val g * 10) <= 4 * INR j * ulp24 * ((1 + 2 * ulp24) * val f)) by (apply Rmult_le_compat_l; [unfold ulp24; lra|assumption]).
      assert (4 * INR j * ulp24 * (2 * ulp24) <= 2 * ulp24) by (unfold ulp24; lra).
      assert (4 * INR j * ulp24 * (2 * ulp24) * val f <= 2 * ulp24 * val f) by (apply Rmult_le_compat_r; lra). lra.
    + intros Hf. apply RM. rewrite S_INR in Hf. cbn [pow] in Hf.
      assert (K : 0 <= INR n <= 10) by (split; [apply pos_INR|]; replace 10 with (INR 10) by (cbn; lra); apply le_INR; lia).
      assert (A : val g * 10 * (1 + 4 * INR n * ulp24) <= (1 + 2 * ulp24) * val f * (1 + 4 * INR n * ulp24)) by (apply Rmult_le_compat_r; unfold ulp24 in *; lra).
      assert (D : (1 + 2 * ulp24) * (1 + 4 * INR n * ulp24) <= 1 + 4 * (INR n + 1) * ulp24) by (unfold ulp24; lra).
      assert (val f * ((1 + 2 * ulp24) * (1 + 4 * INR n * ulp24)) <= val f * (1 + 4 * (INR n + 1) * ulp24)) by (apply Rmult_le_compat_l; lra). lra.
    + destruct (Nat.eq_dec j 0) as [->|NJ]; [|apply (Z1 NJ)]. rewrite (Z0 eq_refl). unfold ulp24 in *. lra.
  - exists 0%nat. cbn [pow INR Z.of_nat]. rewrite Z.add_0_r, !Rmult_1_r. rewrite Rminus_diag_eq, Rabs_R0 by reflexivity.
    repeat split; try lia; try (apply O); try lra; try congruence.
Qed.
Lemma decimal_float mb eb lo hi f : let M := (2 ^ mb - 1)%Z in (10 <= mb <= 24)%Z -> (0 <= eb <= 4)%Z -> (lo <= 0)%Z -> (M <= hi)%Z -> fin prec emax f ->
  0 <= val f -> val f * (1 + 4 * IZR (eb + 1) * ulp24) <= IZR M * 10 ^ Z.to_nat (eb + 1) ->
  let (m, e) := from_float prec emax mb eb lo hi f in
  (0 <= m <= M)%Z /\ (0 <= e <= eb + 1)%Z /\ fin prec emax (to_float prec emax m e) /\
  Rabs (val (to_float prec emax m e) - val f) <= Rmax (1.01 + IZR M * ulp24) ((10.2 / IZR M + 50 * ulp24) * val f).
Proof.
  intros M HM HE HL HH FO F0 FM.
  assert (MB : (1000 <= M < 2 ^ 24)%Z).
  { unfold M. assert (2 ^ 10 <= 2 ^ mb <= 2 ^ 24)%Z by (split; apply Z.pow_le_mono_r; lia). lia. }
  assert (M0 : 1000 <= IZR M) by (apply IZR_le; lia). assert (M1 : IZR M <= 16777216).
  { unfold M. assert (2 ^ mb <= 2 ^ 24)%Z by (apply Z.pow_le_mono_r; lia). apply IZR_le. lia. }
  assert (P5 : 10 ^ Z.to_nat (eb + 1) <= 100000) by (apply Rle_trans with (10 ^ 5); [apply Rle_pow; [lra|lia]|lra]).
  assert (P1 : 1 <= 10 ^ Z.to_nat (eb + 1)) by (apply pow_R1_Rle; lra).
  assert (E1 : 1 <= IZR (eb + 1) <= 5) by (split; apply IZR_le; lia).
  assert (FH : 0 <= val f <= huge) by (split; [exact F0|]; unfold huge, ulp24 in *; nra).
  unfold from_float. fold M. clearbody M. pose proof (scaling M (Z.to_nat (eb + 1)) f 0 MB ltac:(lia) FO FH) as S.
  destruct (scale_loop prec emax M (Z.to_nat (eb + 1)) f 0) as [r e]. destruct S as (j & Hj & -> & RO & R0 & RN & RM & Z0 & Z1).
  rewrite INR_IZR_INZ, Z2Nat.id in RM by lia. specialize (RM FM). rewrite Z.add_0_l.
  rewrite (cast_fin prec emax r lo hi ltac:(lia) RO). rewrite Ztrunc_floor by exact R0.
  pose proof (Zfloor_lb (val r)) as L1. pose proof (Zfloor_ub (val r)) as L2. set (m := Zfloor (val r)) in *.
  assert (m0 : (0 <= m)%Z) by (apply Zfloor_lub; exact R0). assert (mM : (m <= M)%Z) by (apply le_IZR; lra).
  replace (Z.max lo (Z.min hi m)) with m by lia. split; [lia|]. split; [lia|].
  destruct (fa_int _ _ FA m ltac:(lia)) as [MO MV]. destruct (fa_pow _ _ FA j ltac:(lia)) as [PO PV].
  assert (J5 : 10 ^ j <= 100000) by (apply Rle_trans with (10 ^ 5); [apply Rle_pow; [lra|lia]|lra]). assert (J1 : 1 <= 10 ^ j) by (apply pow_R1_Rle; lra).
  assert (mr : 0 <= IZR m) by (apply IZR_le; lia).
  assert (Q : IZR m * 10 ^ j <= val r * 10 ^ j) by (apply Rmult_le_compat_r; lra).
  assert (Q2 : val r * 10 ^ j - 10 ^ j <= IZR m * 10 ^ j) by nra. assert (Q0 : 0 <= IZR m * 10 ^ j) by (apply Rmult_le_pos; lra).
  assert (JB : 0 <= INR j <= 5) by (split; [apply pos_INR|]; replace 5 with (INR 5) by (cbn; lra); apply le_INR; lia).
  assert (RN' : Rabs (val r * 10 ^ j - val f) <= 20 * ulp24 * val f) by (eapply Rle_trans; [exact RN|]; apply Rmult_le_compat_r; [exact F0|unfold ulp24; lra]).
  apply Rabs_le_inv in RN'. clear RN.
  assert (FB : val f <= 2000000000000) by (unfold ulp24 in *; nra).
  destruct (fa_mul _ _ FA (SpecFloat.binary_normalize prec emax m 0 false) (pow10 prec emax (Z.of_nat j)) MO PO) as [TO TN]; [rewrite MV, PV, Rabs_right by lra; unfold huge, ulp24 in *; lra|].
  change (to_float prec emax m (Z.of_nat j)) with (SFmul prec emax (SpecFloat.binary_normalize prec emax m 0 false) (pow10 prec emax (Z.of_nat j))). split; [exact TO|].
  set (V := val (SFmul prec emax (SpecFloat.binary_normalize prec emax m 0 false) (pow10 prec emax (Z.of_nat j)))) in *. rewrite MV, PV, (Rabs_right (IZR m * 10 ^ j)) in TN by lra. apply Rabs_le_inv in TN.
  destruct (Nat.eq_dec j 0) as [->|NJ].
  - eapply Rle_trans; [|apply Rmax_l]. cbn [pow] in *. rewrite (Z0 eq_refl) in *. apply Rabs_le. unfold tiny, ulp24 in *. lra.
  - eapply Rle_trans; [|apply Rmax_r]. specialize (Z1 NJ).
    assert (T : IZR M / 10 * 0.999 * 10 ^ j <= val f * 1.00001) by (apply Rle_trans with (val r * 10 ^ j); [apply Rmult_le_compat_r; lra|unfold ulp24 in *; lra]).
    assert (T' : 10 ^ j <= 10.2 / IZR M * val f - 0.01 * val f / IZR M).
    { assert (I : 0 < / IZR M) by (apply Rinv_0_lt_compat; lra). assert (I' : IZR M * / IZR M = 1) by (apply Rinv_r, Rgt_not_eq, Rlt_gt; lra).
      assert (W : 10 ^ j * (IZR M * / IZR M) <= 10.19 * val f * / IZR M) by (rewrite <- Rmult_assoc; apply Rmult_le_compat_r; lra).
      rewrite I' in W. unfold Rdiv. lra. }
    assert (FJ : 90 <= val f).
    { assert (10 <= 10 ^ j) by (apply Rle_trans with (10 ^ 1); [lra|apply Rle_pow; [lra|lia]]).
      assert (1000 / 10 * 0.999 * 10 <= IZR M / 10 * 0.999 * 10 ^ j) by nra. lra. }
    assert (0 <= 0.01 * val f / IZR M) by (apply Rmult_le_pos; [lra|left; apply Rinv_0_lt_compat; lra]).
    apply Rabs_le. rewrite Rmult_plus_distr_r. unfold tiny, ulp24 in *. lra.
Qed.
End Decimal.
Lemma scale_more n k M f e : (let (r, _) := scale_loop 24 128 M n f e in SFltb (SpecFloat.binary_normalize 24 128 M 0 false) r = false) ->
  scale_loop 24 128 M (n + k) f e = scale_loop 24 128 M n f e.
Proof.
  revert f e. induction n as [|n IH]; intros f e H.
  - cbn [scale_loop] in H. destruct k; [reflexivity|]. cbn [Nat.add scale_loop]. now rewrite H.
  - cbn [Nat.add scale_loop] in *. destruct (SFltb _ f); [apply IH, H|reflexivity].
Qed.
(** when [eb + 1] divisions bring the number into range the loop stops there, however many it may make *)
Lemma from_float_less mb eb eb' lo hi f : let M := (2 ^ mb - 1)%Z in (10 <= mb <= 24)%Z -> (0 <= eb <= eb')%Z -> (eb <= 4)%Z -> ok24 f ->
  0 <= val f -> val f * (1 + 4 * IZR (eb + 1) * ulp24) <= IZR M * 10 ^ Z.to_nat (eb + 1) ->
  from_float 24 128 mb eb' lo hi f = from_float 24 128 mb eb lo hi f.
Proof.
  intros M HM HE H4 FO F0 FM. assert (MB : (1000 <= M < 2 ^ 24)%Z).
  { unfold M. assert (2 ^ 10 <= 2 ^ mb <= 2 ^ 24)%Z by (split; apply Z.pow_le_mono_r; lia). lia. }
  assert (M0 : 1000 <= IZR M) by (apply IZR_le; lia). assert (M1 : IZR M <= 16777216) by (apply IZR_le; lia).
  assert (P5 : 10 ^ Z.to_nat (eb + 1) <= 100000) by (apply Rle_trans with (10 ^ 5); [apply Rle_pow; [lra|lia]|lra]).
  assert (P1 : 1 <= 10 ^ Z.to_nat (eb + 1)) by (apply pow_R1_Rle; lra).
  assert (E1 : 1 <= IZR (eb + 1) <= 5) by (split; apply IZR_le; lia).
  assert (FH : 0 <= val f <= huge) by (split; [exact F0|]; unfold huge, ulp24 in *; nra).
  unfold from_float. fold M. clearbody M. replace (Z.to_nat (eb' + 1)) with (Z.to_nat (eb + 1) + Z.to_nat (eb' - eb))%nat by lia.
  rewrite scale_more; [reflexivity|]. pose proof (scaling 24 128 facts24 M (Z.to_nat (eb + 1)) f 0 MB ltac:(lia) FO FH) as S.
  destruct (scale_loop 24 128 M (Z.to_nat (eb + 1)) f 0) as [r e]. destruct S as (j & _ & _ & RO & _ & _ & RM & _).
  rewrite INR_IZR_INZ, Z2Nat.id in RM by lia. specialize (RM FM). destruct (int_exact M ltac:(lia)) as [MO MV].
  change (SpecFloat.binary_normalize 24 128 M 0 false) with (sf_of_int M). rewrite (ltb_R 24 128 _ _ MO RO), MV. now apply Rlt_bool_false.
Qed.
Lemma scaled_bits mb eb lo hi rel top b : let M := (2 ^ mb - 1)%Z in (10 <= mb <= 20)%Z -> (0 <= eb <= 4)%Z -> (lo <= 0)%Z -> (M <= hi)%Z ->
  top * (1 + 4 * IZR (eb + 1) * ulp24) <= IZR M * 10 ^ Z.to_nat (eb + 1) -> 10.2 / IZR M + 50 * ulp24 <= rel ->
  forall eb', (eb <= eb')%Z -> f32_finite b -> 0 <= f32_value b <= top ->
  let (m, e) := from_float 24 128 mb eb' lo hi (sf_of_bits b) in
  (0 <= m <= M)%Z /\ (0 <= e <= eb + 1)%Z /\ scaled_arrives 1.1 rel top b (bits_of_sf (to_float 24 128 m e)).
Proof.
  intros M H1 H2 H3 H4 H5 H6 eb' H7 F [R0 R1]. destruct (of_bits_fin b F) as [O V].
  assert (0 <= IZR (eb + 1)) by (apply IZR_le; lia). assert (0 <= 4 * IZR (eb + 1) * ulp24) by (unfold ulp24; lra).
  assert (K : f32_value b * (1 + 4 * IZR (eb + 1) * ulp24) <= IZR M * 10 ^ Z.to_nat (eb + 1)) by (eapply Rle_trans; [|exact H5]; apply Rmult_le_compat_r; lra).
  rewrite (from_float_less mb eb eb' lo hi (sf_of_bits b)) by (try lia; try exact O; rewrite V; first [exact K|lra]).
  destruct (from_float 24 128 mb eb lo hi (sf_of_bits b)) as [m e] eqn:E.
  pose proof (decimal_float 24 128 facts24 mb eb lo hi (sf_of_bits b) ltac:(lia) H2 H3 H4 O) as D. rewrite E, V in D. fold M in D.
  destruct (D R0 K) as (D1 & D2 & G & N). split; [exact D1|]. split; [exact D2|]. intros _ _.
  apply near_bits; [exact G|]. eapply Rle_trans; [exact N|].
  assert (IZR M <= 1048576) by (unfold M; assert (2 ^ mb <= 2 ^ 20)%Z by (apply Z.pow_le_mono_r; lia); apply IZR_le; lia).
  apply Rmax_lub; [eapply Rle_trans; [|apply Rmax_l]; unfold ulp24; lra|]. eapply Rle_trans; [|apply Rmax_r]. apply Rmult_le_compat_r; assumption.
Qed.
Ltac nums := repeat match goal with |- context [Z.to_nat ?x] => let v := eval vm_compute in (Z.to_nat x) in change (Z.to_nat x) with v end;
  repeat match goal with |- context [IZR (?x + ?y)] => let v := eval vm_compute in (x + y)%Z in change (x + y)%Z with v
    | |- context [IZR (?x - ?y)] => let v := eval vm_compute in (x - y)%Z in change (x - y)%Z with v end; unfold ulp24; cbn [pow]; lra.
Lemma cff_kept b : f32_finite b -> 0 <= f32_value b <= 13100000000 -> fits_CFrequencyFloat (enc_cff b) /\ frequency_kept b (dec_cff (enc_cff b)).
Proof.
  intros F R. unfold dec_cff, enc_cff.
  pose proof (scaled_bits 17 4 0 (2 ^ 32 - 1) 0.000082 13100000000 b ltac:(lia) ltac:(lia) ltac:(lia) ltac:(lia) ltac:(nums) ltac:(nums) 4 ltac:(lia) F R) as H.
  destruct (from_float 24 128 17 4 0 (2 ^ 32 - 1) (sf_of_bits b)) as [m e]. destruct H as (A & B & C). split; [|exact C].
  unfold fits_CFrequencyFloat, ub. cbn [CFrequencyFloat_mantissa CFrequencyFloat_exponent]. lia.
Qed.
Lemma bandwidth_kept b : f32_finite b -> 0 <= f32_value b <= 13100000000 -> fits_CTxBandwidth (enc_tx_bandwidth b) /\ frequency_kept b (dec_tx_bandwidth (enc_tx_bandwidth b)).
Proof.
  intros F R. unfold dec_tx_bandwidth, enc_tx_bandwidth.
  pose proof (scaled_bits 17 4 0 (2 ^ 32 - 1) 0.000082 13100000000 b ltac:(lia) ltac:(lia) ltac:(lia) ltac:(lia) ltac:(nums) ltac:(nums) 4 ltac:(lia) F R) as H.
  destruct (from_float 24 128 17 4 0 (2 ^ 32 - 1) (sf_of_bits b)) as [m e]. destruct H as (A & B & C). split; [|exact C].
  unfold fits_CTxBandwidth, ub. cbn [CTxBandwidth_mantissa CTxBandwidth_exponent]. lia.
Qed.
Lemma force_is_kept b : f32_finite b -> 0 <= f32_value b <= 32700000 -> fits_CForceFloat (enc_force b) /\ force_kept b (dec_force (enc_force b)).
Proof.
  intros F R. unfold dec_force, enc_force.
  pose proof (scaled_bits 15 2 0 65535 0.000316 32700000 b ltac:(lia) ltac:(lia) ltac:(lia) ltac:(lia) ltac:(nums) ltac:(nums) 3 ltac:(lia) F R) as H.
  destruct (from_float 24 128 15 3 0 65535 (sf_of_bits b)) as [m e]. destruct H as (A & B & C). split; [|exact C].
  unfold fits_CForceFloat, ub, sb. cbn [CForceFloat_mantissa CForceFloat_exponent]. lia.
Qed.
Lemma pulse_is_kept b : f32_finite b -> 0 <= f32_value b <= 16300000 -> fits_CPulseWidth (enc_pulse b) /\ pulse_kept b (dec_pulse (enc_pulse b)).
Proof.
  intros F R. unfold dec_pulse, enc_pulse.
  pose proof (scaled_bits 14 2 0 65535 0.000627 16300000 b ltac:(lia) ltac:(lia) ltac:(lia) ltac:(lia) ltac:(nums) ltac:(nums) 3 ltac:(lia) F R) as H.
  destruct (from_float 24 128 14 3 0 65535 (sf_of_bits b)) as [m e]. destruct H as (A & B & C). split; [|exact C].
  unfold fits_CPulseWidth, ub, sb. cbn [CPulseWidth_mantissa CPulseWidth_exponent]. lia.
Qed.
Lemma parameter_is_kept b : f32_finite b -> -16383 <= f32_value b <= 16383 -> fits_CParameterValue (enc_cpv b) /\ parameter_kept b (dec_cpv (enc_cpv b)).
Proof.
  intros F R. destruct (of_bits_fin b F) as [O V]. unfold dec_cpv, enc_cpv, from_float. change (Z.to_nat (3 + 1)) with 4%nat. change (2 ^ 15 - 1)%Z with 32767%Z.
  destruct (int_exact 32767 ltac:(lia)) as [MO MV]. cbn [scale_loop]. change (SpecFloat.binary_normalize 24 128 32767 0 false) with (sf_of_int 32767).
  rewrite (ltb_R 24 128 _ _ MO O), MV, V. rewrite Rlt_bool_false by lra. cbn [cpv_mantissa cpv_exponent].
  rewrite (cast_fin 24 128 _ (- 2 ^ 31) (2 ^ 31 - 1) ltac:(lia) O), V.
  assert (T : (-16383 <= Ztrunc (f32_value b) <= 16383)%Z).
  { split; [apply Z.le_trans with (Ztrunc (IZR (-16383))); [now rewrite Ztrunc_IZR|apply Ztrunc_le; lra]|apply Z.le_trans with (Ztrunc (IZR 16383)); [apply Ztrunc_le; lra|now rewrite Ztrunc_IZR]]. }
  rewrite Z.min_r, Z.max_r by lia. split; [unfold fits_CParameterValue, sb; cbn [cpv_mantissa cpv_exponent cpv_raw]; split; [reflexivity|lia]|]. intros _ _.
  destruct (int_exact (Ztrunc (f32_value b)) ltac:(lia)) as [ZO ZV]. destruct (pow10_ok 0 ltac:(lia)) as [PO PV].
  pose proof (trunc_near (f32_value b)) as Q. set (t := Ztrunc (f32_value b)) in *. change (Z.of_nat 0) with 0%Z in *. cbn [pow] in PV.
  assert (TA : Rabs (IZR t) <= 16777215) by (rewrite <- abs_IZR; apply IZR_le; lia).
  destruct (mul_R 24 128 _ _ (sf_of_int t) (pow10 24 128 0) ZO PO) as [TO TN]; [apply rnd_small; rewrite ZV, PV, Rmult_1_r; unfold huge; lra|].
  change (to_float 24 128 t 0) with (SFmul 24 128 (sf_of_int t) (pow10 24 128 0)).
  apply near_bits; [exact TO|]. rewrite TN, PV, Rmult_1_r, ZV.
  assert (X : F2R (Float radix2 t 0) = IZR t) by (unfold F2R; cbn; ring).
  rewrite <- X, (rnd_exact 24 128 t 0) by (try lia; unfold SpecFloat.emin; lia). rewrite X, Rabs_minus_sym. lra.
Qed.
Lemma rnd_small53 x : Rabs x <= huge -> Rabs (rnd 53 1024 x) < bpow radix2 1024.
Proof.
  intros H. pose proof (rnd_near53 x) as N. apply Rle_lt_trans with (huge * 2).
  - unfold huge, ulp24, tiny in *. revert H N. unfold Rabs; repeat destruct Rcase_abs; intros; lra.
  - apply Rlt_le_trans with (bpow radix2 128); [unfold huge; cbn; lra|apply bpow_le; lia].
Qed.
Lemma int_exact53 z : (Z.abs z < 2 ^ 53)%Z -> fin 53 1024 (df_of_int z) /\ val (df_of_int z) = IZR z.
Proof.
  intros H. unfold df_of_int. destruct (normalize_R 53 1024 _ _ z 0 false) as [F V].
  - assert (X : F2R (Float radix2 z 0) = IZR z) by (unfold F2R; cbn; ring). rewrite (rnd_exact 53 1024 z 0) by (try lia; unfold SpecFloat.emin; lia).
    rewrite X, <- abs_IZR. apply Rlt_trans with (IZR (2 ^ 53)); [apply IZR_lt; exact H|]. change (IZR (2 ^ 53)) with (IZR (radix2 ^ 53)). rewrite IZR_Zpower by lia. apply bpow_lt. lia.
  - split; [exact F|]. rewrite V, (rnd_exact 53 1024 z 0) by (try lia; unfold SpecFloat.emin; lia). unfold F2R; cbn; ring.
Qed.
Lemma facts53 : Facts 53 1024.
Proof.
  constructor.
  - intros z H. apply int_exact53. lia.
  - intros x y A B C. destruct (mul_R 53 1024 _ _ x y A B (rnd_small53 _ C)) as [F V]. split; [exact F|]. rewrite V. apply rnd_near53.
  - intros x y A B N C. destruct (div_R 53 1024 _ _ x y A B N (rnd_small53 _ C)) as [F V]. split; [exact F|]. rewrite V. apply rnd_near53.
  - intros. now apply (ltb_R 53 1024).
  - intros j H. do 6 (destruct j as [|j]; [unfold fin; split; [split; vm_compute; reflexivity|]; match goal with |- SF2R radix2 ?c = _ => let v := eval vm_compute in c in change c with v end; cbn [SF2R]; unfold F2R; cbn; lra|]). lia.
Qed.
Lemma hertz f : hertz_kept f (dec_tx_frequency (enc_tx_frequency f)).
Proof.
  split.
  - intros H. destruct (int_exact53 f ltac:(lia)) as [O V]. destruct (int_exact53 16777215 ltac:(lia)) as [MO MV].
    unfold enc_tx_frequency, from_float. change (Z.to_nat (4 + 1)) with 5%nat. change (2 ^ 24 - 1)%Z with 16777215%Z. cbn [scale_loop].
    change (SpecFloat.binary_normalize 53 1024 16777215 0 false) with (df_of_int 16777215). rewrite (ltb_R 53 1024 _ _ MO O), MV, V.
    assert (R : 0 <= IZR f <= 16777215) by (split; apply IZR_le; lia).
    rewrite Rlt_bool_false by lra. rewrite (cast_fin 53 1024 _ 0 (2 ^ 32 - 1) ltac:(lia) O), V, Ztrunc_IZR.
    rewrite Z.min_r, Z.max_r by lia. unfold dec_tx_frequency. cbn [CTxFrequency_mantissa CTxFrequency_exponent].
    destruct (fa_pow _ _ facts53 0 ltac:(lia)) as [PO PV]. change (Z.of_nat 0) with 0%Z in *. cbn [pow] in PV.
    change (to_float 53 1024 f 0) with (SFmul 53 1024 (df_of_int f) (pow10 53 1024 0)).
    destruct (mul_R 53 1024 _ _ (df_of_int f) (pow10 53 1024 0) O PO) as [TO TN]; [apply rnd_small53; rewrite V, PV, Rmult_1_r; unfold huge; apply Rabs_le; lra|].
    rewrite (cast_fin 53 1024 _ 0 (2 ^ 64 - 1) ltac:(lia) TO), TN, PV, V, Rmult_1_r.
    assert (X : F2R (Float radix2 f 0) = IZR f) by (unfold F2R; cbn; ring).
    rewrite <- X, (rnd_exact 53 1024 f 0) by (try lia; unfold SpecFloat.emin; lia). rewrite X, Ztrunc_IZR. lia.
  - intros H. destruct (int_exact53 f ltac:(lia)) as [O V]. assert (R : 16777215 <= IZR f <= 1670000000000) by (split; apply IZR_le; lia).
    pose proof (decimal_float 53 1024 facts53 24 4 0 (2 ^ 32 - 1) (df_of_int f) ltac:(lia) ltac:(lia) ltac:(lia) ltac:(lia) O) as D. unfold enc_tx_frequency.
    destruct (from_float 53 1024 24 4 0 (2 ^ 32 - 1) (df_of_int f)) as [m e]. rewrite V in D. change (IZR (2 ^ 24 - 1)) with 16777215 in D.
    change (IZR (4 + 1)) with 5 in D. change (Z.to_nat (4 + 1)) with 5%nat in D.
    destruct D as (_ & _ & TO & N); [lra|unfold ulp24; lra|].
    unfold dec_tx_frequency. cbn [CTxFrequency_mantissa CTxFrequency_exponent]. rewrite (cast_fin 53 1024 _ 0 (2 ^ 64 - 1) ltac:(lia) TO).
    set (v := val (to_float 53 1024 m e)) in *. pose proof (trunc_near v) as Q.
    assert (N' : Rabs (v - IZR f) <= 0.0000037 * IZR f).
    { eapply Rle_trans; [exact N|]. apply Rmax_lub; [unfold ulp24; lra|]. apply Rmult_le_compat_r; unfold ulp24; lra. }
    clear N. apply Rabs_le_inv in N'. apply Rabs_lt_inv in Q.
    assert (B : (0 <= Ztrunc v <= 2 ^ 64 - 1)%Z).
    { split; apply le_IZR; [lra|]. apply Rle_trans with 2000000000000; [lra|]. apply (IZR_le 2000000000000). lia. }
    rewrite Z.min_r, Z.max_r by lia. apply Rabs_le. lra.
Qed.
Lemma hertz_fits f : (0 <= f <= 1670000000000)%Z -> fits_CTxFrequency (enc_tx_frequency f).
Proof.
  intros H. destruct (int_exact53 f ltac:(lia)) as [O V]. assert (R : 0 <= IZR f <= 1670000000000) by (split; apply IZR_le; lia).
  pose proof (decimal_float 53 1024 facts53 24 4 0 (2 ^ 32 - 1) (df_of_int f) ltac:(lia) ltac:(lia) ltac:(lia) ltac:(lia) O) as D. unfold enc_tx_frequency.
  destruct (from_float 53 1024 24 4 0 (2 ^ 32 - 1) (df_of_int f)) as [m e]. rewrite V in D. change (IZR (2 ^ 24 - 1)) with 16777215 in D.
  change (IZR (4 + 1)) with 5 in D. change (Z.to_nat (4 + 1)) with 5%nat in D.
  destruct D as (A & B & _ & _); [lra|unfold ulp24; lra|]. unfold fits_CTxFrequency, ub. cbn [CTxFrequency_mantissa CTxFrequency_exponent]. lia.
Qed.

(** ** Whole numbers *)
Lemma fin_format f : ok24 f -> rnd 24 128 (val f) = val f.
Proof. intros [V F]. destruct (take_bin 24 128 f V) as (a & _ & _ & <-). unfold rnd. apply round_generic; [typeclasses eauto|]. apply generic_format_B2R. Qed.
Lemma large_whole f : ok24 f -> 16777216 <= Rabs (val f) -> IZR (Ztrunc (val f)) = val f.
Proof.
  intros [V F] H. destruct f as [s|s| |s p e]; cbn [is_finite_SF] in F; try discriminate; [cbn [SF2R] in *; now rewrite (Ztrunc_IZR 0)|].
  cbn [valid_binary] in V. apply bounded_inv in V.
  assert (E : (0 <= e)%Z).
  { destruct (Z.leb_spec 0 e); [assumption|]. exfalso. cbn [SF2R] in H. rewrite <- F2R_Zabs, abs_cond_Zopp in H. cbn [Z.abs] in H. unfold F2R in H. cbn [Fnum Fexp] in H.
    assert (IZR (Zpos p) < 16777216) by (apply IZR_lt; lia). assert (IZR (Zpos p) > 0) by (apply IZR_lt; lia). assert (bpow radix2 e <= 1) by (apply (bpow_le radix2 e 0); lia). assert (0 < bpow radix2 e) by apply bpow_gt_0. nra. }
  cbn [SF2R]. unfold F2R. cbn [Fnum Fexp]. rewrite <- IZR_Zpower by exact E. rewrite <- mult_IZR, Ztrunc_IZR. reflexivity.
Qed.
(** the truncated number, read back *)
Lemma whole_back f : ok24 f -> Rabs (val f) <= huge -> ok24 (sf_of_int (Ztrunc (val f))) /\ Rabs (val (sf_of_int (Ztrunc (val f))) - val f) <= 1.
Proof.
  intros O H. pose proof (trunc_near (val f)) as Q. set (t := Ztrunc (val f)) in *. destruct (Rlt_or_le (Rabs (val f)) 16777216) as [C|C].
  - assert (Z.abs t < 2 ^ 24)%Z.
    { unfold t. apply lt_IZR. rewrite <- Ztrunc_abs. rewrite Ztrunc_floor by apply Rabs_pos. change (IZR (2 ^ 24)) with 16777216.
      pose proof (Zfloor_lb (Rabs (val f))). lra. }
    destruct (int_exact t H0) as [A B]. split; [exact A|]. rewrite B, Rabs_minus_sym. lra.
  - pose proof (large_whole f O C) as W. fold t in W. destruct (int_near t) as [A _]; [rewrite W; exact H|]. split; [exact A|].
    unfold sf_of_int. assert (X : F2R (Float radix2 t 0) = IZR t) by (unfold F2R; cbn; ring).
    destruct (normalize_R 24 128 _ _ t 0 false) as [_ V]; [rewrite X, W, fin_format by exact O; rewrite <- (fin_format f O); apply rnd_small; exact H|].
    rewrite V, X, W, (fin_format f O). rewrite Rminus_diag_eq, Rabs_R0 by reflexivity. lra.
Qed.
Lemma from_ok lo hi f : ok24 f -> (lo <= 0 <= hi)%Z -> IZR lo <= val f <= IZR hi -> sf_from lo hi f = Some (Ztrunc (val f)).
Proof.
  intros [V F] L R. destruct f as [s|s| |s p e]; cbn [is_finite_SF] in F; try discriminate; [cbn [sf_from SF2R]; now rewrite (Ztrunc_IZR 0)|].
  unfold sf_from. rewrite trunc_val. set (v := val (S754_finite s p e)) in *. cbv zeta.
  assert (lo <= Ztrunc v <= hi)%Z.
  { split; [apply Z.le_trans with (Ztrunc (IZR lo)); [now rewrite Ztrunc_IZR|apply Ztrunc_le; lra]|apply Z.le_trans with (Ztrunc (IZR hi)); [apply Ztrunc_le; lra|now rewrite Ztrunc_IZR]]. }
  destruct (Z.leb_spec lo (Ztrunc v)), (Z.leb_spec (Ztrunc v) hi); try lia. reflexivity.
Qed.
Lemma whole lo hi d b : (- 2 ^ 40 <= lo <= 0)%Z -> (0 <= hi <= 2 ^ 40)%Z -> arrives 1 (IZR lo) (IZR hi) b (f32_of_int (unopt d (sf_from lo hi (sf_of_bits b)))).
Proof.
  intros L H F R. destruct (of_bits_fin b F) as [O V]. rewrite (from_ok lo hi _ O) by (try lia; now rewrite V). cbn [unopt].
  assert (B : Rabs (val (sf_of_bits b)) <= huge).
  { rewrite V. assert (IZR hi <= IZR (2 ^ 40)) by (apply IZR_le; lia). assert (IZR (- 2 ^ 40) <= IZR lo) by (apply IZR_le; lia). 
    change (IZR (2 ^ 40)) with 1099511627776 in *. change (IZR (- 2 ^ 40)) with (-1099511627776) in *. unfold huge. apply Rabs_le. lra. }
  destruct (whole_back _ O B) as [A N]. unfold f32_of_int. apply near_bits; [exact A|]. rewrite V in *. exact N.
Qed.
Lemma thousand_ok : ok24 (fz 1000) /\ val (fz 1000) = 1000. Proof. scale. Qed.
Lemma limit_ok : ok24 (sf_of_bits 1115886060) /\ 65.535 <= val (sf_of_bits 1115886060) <= 65.5351. Proof. scale. Qed.
Lemma mass_is_kept b : mass_kept b (dec_mass (fst (enc_mass b)) (snd (enc_mass b))).
Proof.
  assert (G : f32_finite b -> 0 <= f32_value b -> SFleb (sf_of_bits b) (sf_of_bits 1115886060) = true ->
    f32_finite (dec_mass (fst (enc_mass b)) (snd (enc_mass b))) /\ within 0.0011 (f32_value (dec_mass (fst (enc_mass b)) (snd (enc_mass b)))) (f32_value b)).
  { intros F R0 C. unfold enc_mass. rewrite C. cbn [fst snd]. unfold dec_mass. change (0 =? 0)%Z with true. cbv iota.
    destruct (of_bits_fin b F) as [O V]. destruct limit_ok as [LO LV], thousand_ok as [T TV].
    rewrite (leb_R 24 128 _ _ O LO) in C. destruct (Rle_bool_spec (val (sf_of_bits b)) (val (sf_of_bits 1115886060))) as [C'|]; [clear C|discriminate]. rewrite V in C'.
    destruct (mul_near (sf_of_bits b) (fz 1000) O T) as [PO PN]; [rewrite V, TV; unfold huge; apply Rabs_le; lra|].
    destruct (mul_R 24 128 _ _ (sf_of_bits b) (fz 1000) O T) as [_ PV]; [apply rnd_small; rewrite V, TV; unfold huge; apply Rabs_le; lra|].
    set (p := sfmul (sf_of_bits b) (fz 1000)) in *. change (SFmul 24 128 (sf_of_bits b) (fz 1000)) with p in PV.
    assert (P0 : 0 <= val p) by (rewrite PV, <- rnd_0; apply rnd_mono; rewrite V, TV; lra).
    rewrite V, TV, (Rabs_right (f32_value b * 1000)) in PN by lra. apply Rabs_le_inv in PN. unfold ulp24, tiny in PN.
    rewrite (from_ok 0 4294967295 p PO) by (try lia; lra). cbn [unopt].
    replace (Ztrunc (val p)) with (sf_cast 0 65536 p).
    2:{ rewrite (cast_fin 24 128 _ 0 65536 ltac:(lia) PO). assert (0 <= Ztrunc (val p) <= 65536)%Z; [|lia]. rewrite Ztrunc_floor by exact P0.
        split; [apply Zfloor_lub; exact P0|]. apply le_IZR. pose proof (Zfloor_lb (val p)). lra. }
    destruct (hop sf_cast 1 (sf_of_bits b) (fz 1000) 0 65536 cast_converts ltac:(lra) O T ltac:(lia) ltac:(lia) ltac:(rewrite TV; lra)) as [H N].
    fold p in H, N. rewrite TV, V, clip_id in N by lra. apply near_bits; [exact H|]. unfold tiny in N. lra. }
  destruct limit_ok as [LO LV]. split; intros F [R0 R1].
  - apply G; [exact F|exact R0|]. destruct (of_bits_fin b F) as [O V]. rewrite (leb_R 24 128 _ _ O LO), V. apply Rle_bool_true. lra.
  - destruct (SFleb (sf_of_bits b) (sf_of_bits 1115886060)) eqn:C; [destruct (G F R0 eq_refl) as [A B]; split; [exact A|]; unfold within in *; lra|].
    unfold enc_mass. rewrite C. cbn [fst snd]. unfold dec_mass. change (1 =? 0)%Z with false. cbv iota. apply (whole 0 4294967295); [lia|lia|exact F|lra].
Qed.
Lemma power_is_kept b : carried 1 0 255 b (f32_of_int (sf_cast 0 255 (sf_of_bits b))).
Proof.
  intros F. destruct (of_bits_fin b F) as [O V]. rewrite (cast_fin 24 128 _ 0 255 ltac:(lia) O), V.
  unfold f32_of_int. set (z := Z.max _ _). destruct (int_exact z ltac:(lia)) as [G W]. apply near_bits; [exact G|]. rewrite W. unfold z. rewrite IZR_clip by lia.
  eapply Rle_trans; [apply clip_lip|]. rewrite Rabs_minus_sym. left. apply trunc_near.
Qed.
Lemma field_is_kept b : carried 1 (-32768) 32767 b (f32_of_int (f32_as_i16 (sf_of_bits b))).
Proof.
  intros F. destruct (of_bits_fin b F) as [O V]. unfold f32_as_i16. rewrite (cast_fin 24 128 _ (-32768) 32767 ltac:(lia) O), V.
  unfold f32_of_int. set (z := Z.max _ _). destruct (int_exact z ltac:(lia)) as [G W]. apply near_bits; [exact G|]. rewrite W. unfold z. rewrite IZR_clip by lia.
  eapply Rle_trans; [apply clip_lip|]. rewrite Rabs_minus_sym. left. apply trunc_near.
Qed.
Lemma plain_angle b : arrives 0.00078 (-3.1416) 3.1416 b (dec_angle (f32_as_i16 (sfmul (sf_of_bits b) orientation_scale))).
Proof.
  intros F R. destruct (of_bits_fin b F) as [O V]. destruct orientation_ok as [T TV].
  destruct (hop sf_cast 1 (sf_of_bits b) orientation_scale (-32768) 32767 cast_converts ltac:(lra) O T ltac:(lia) ltac:(lia) ltac:(lra)) as [G N].
  rewrite V in N. unfold dec_angle, f32_as_i16. apply near_bits; [exact G|].
  assert (I : 0 < / val orientation_scale <= / 1303.47) by (split; [apply Rinv_0_lt_compat; lra|apply Rinv_le_contravar; lra]).
  assert (J : / 1303.5 <= / val orientation_scale) by (apply Rinv_le_contravar; lra).
  rewrite clip_id in N by (unfold Rdiv; lra). unfold tiny, Rdiv in *. lra.
Qed.

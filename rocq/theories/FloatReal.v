(** * Floats: the link between the bit-level arithmetic of the model and real numbers (lemmas) *)
From Coq Require Import ZArith List Lia Bool SpecFloat Reals Lra Psatz.
From Flocq Require Import Core BinarySingleNaN Relative.
Open Scope R_scope.

Section Arithmetic.
Context (prec emax : Z) (Hprec : Prec_gt_0 prec) (Hmax : Prec_lt_emax prec emax).
Let emin := SpecFloat.emin prec emax.
Let fexp := SpecFloat.fexp prec emax.
Definition rnd (x : R) : R := round radix2 fexp ZnearestE x.
Notation ok f := (SpecFloat.valid_binary prec emax f = true /\ is_finite_SF f = true).
Notation val := (SF2R radix2).
Definition fin (f : spec_float) : Prop := ok f.

Lemma choice_NE s m l : SpecFloat.round_nearest_even m l = choice_mode mode_NE s m l.
Proof. case l; [reflexivity|intro c]. case c; [|reflexivity..]. now simpl; unfold Round.cond_incr; case Z.even. Qed.
Lemma aux_NE s m e l : SpecFloat.binary_round_aux prec emax s m e l = binary_round_aux prec emax mode_NE s m e l.
Proof.
  unfold SpecFloat.binary_round_aux, binary_round_aux. set (q := shr_fexp _ _ _). case q; intros mrs' e'; simpl. now rewrite (choice_NE s).
Qed.
Lemma round_NE s m e : SpecFloat.binary_round prec emax s m e = binary_round prec emax mode_NE s m e.
Proof. unfold SpecFloat.binary_round, binary_round, shl_align_fexp. set (q := shl_align _ _ _); case q as [mz ez]. apply aux_NE. Qed.
Lemma normalize_NE m e z : SpecFloat.binary_normalize prec emax m e z = B2SF (binary_normalize prec emax Hprec Hmax mode_NE m e z).
Proof. case m as [|p|p]; [now simpl|simpl; rewrite B2SF_SF2B; apply round_NE..]. Qed.

Lemma take_bin f (H : SpecFloat.valid_binary prec emax f = true) : exists x : binary_float prec emax, B2SF x = f /\ is_finite x = is_finite_SF f /\ B2R x = val f.
Proof. exists (SF2B f H). rewrite B2SF_SF2B, is_finite_SF2B, B2R_SF2B. auto. Qed.
Lemma fin_bin (x : binary_float prec emax) : is_finite x = true -> fin (B2SF x) /\ val (B2SF x) = B2R x.
Proof. intros H. unfold fin. rewrite valid_binary_B2SF, is_finite_SF_B2SF, SF2R_B2SF. auto. Qed.
Lemma small_lt r : Rabs r < bpow radix2 emax -> Rlt_bool (Rabs r) (bpow radix2 emax) = true.
Proof. intros. now apply Rlt_bool_true. Qed.

Lemma mul_R x y : fin x -> fin y -> Rabs (rnd (val x * val y)) < bpow radix2 emax ->
  fin (SFmul prec emax x y) /\ val (SFmul prec emax x y) = rnd (val x * val y).
Proof.
  intros [Vx Fx] [Vy Fy] L. destruct (take_bin x Vx) as (a & <- & Ga & Ra), (take_bin y Vy) as (b & <- & Gb & Rb). rewrite <- Ra, <- Rb in *.
  pose proof (Bmult_correct prec emax _ _ mode_NE a b) as C.
  change (SpecFloat.fexp prec emax) with fexp in C. change (round_mode mode_NE) with ZnearestE in C. fold (rnd (B2R a * B2R b)) in C.
  rewrite small_lt in C by assumption. destruct C as (C1 & C2 & _).
  assert (E : SFmul prec emax (B2SF a) (B2SF b) = B2SF (Bmult mode_NE a b)).
  { case a as [sx|sx| |sx mx ex Bx]; case b as [sy|sy| |sy my ey By]; [now trivial..|]. simpl. rewrite B2SF_SF2B. apply aux_NE. }
  rewrite E. rewrite Ga, Gb, Fx, Fy in C2. destruct (fin_bin _ C2) as [G1 G2]. split; [exact G1|]. now rewrite G2.
Qed.
Lemma div_R x y : fin x -> fin y -> val y <> 0 -> Rabs (rnd (val x / val y)) < bpow radix2 emax ->
  fin (SFdiv prec emax x y) /\ val (SFdiv prec emax x y) = rnd (val x / val y).
Proof.
  intros [Vx Fx] [Vy Fy] N L. destruct (take_bin x Vx) as (a & <- & Ga & Ra), (take_bin y Vy) as (b & <- & Gb & Rb). rewrite <- Ra, <- Rb in *.
  pose proof (Bdiv_correct prec emax _ _ mode_NE a b N) as C.
  change (SpecFloat.fexp prec emax) with fexp in C. change (round_mode mode_NE) with ZnearestE in C. fold (rnd (B2R a / B2R b)) in C.
  rewrite small_lt in C by assumption. destruct C as (C1 & C2 & _).
  assert (E : SFdiv prec emax (B2SF a) (B2SF b) = B2SF (Bdiv mode_NE a b)).
  { case a as [sx|sx| |sx mx ex Bx]; case b as [sy|sy| |sy my ey By]; [now (trivial || simpl; case Bool.eqb)..|]. simpl. rewrite B2SF_SF2B.
    set (q := SFdiv_core_binary _ _ _ _ _ _). case q as [[mz ez] lz]. apply aux_NE. }
  rewrite E. rewrite Ga, Fx in C2. destruct (fin_bin _ C2) as [G1 G2]. split; [exact G1|]. now rewrite G2.
Qed.
Lemma add_R x y : fin x -> fin y -> Rabs (rnd (val x + val y)) < bpow radix2 emax ->
  fin (SFadd prec emax x y) /\ val (SFadd prec emax x y) = rnd (val x + val y).
Proof.
  intros [Vx Fx] [Vy Fy] L. destruct (take_bin x Vx) as (a & <- & Ga & Ra), (take_bin y Vy) as (b & <- & Gb & Rb). rewrite <- Ra, <- Rb in *.
  rewrite Fx in Ga. rewrite Fy in Gb.
  pose proof (Bplus_correct prec emax _ _ mode_NE a b Ga Gb) as C.
  change (SpecFloat.fexp prec emax) with fexp in C. change (round_mode mode_NE) with ZnearestE in C. fold (rnd (B2R a + B2R b)) in C.
  rewrite small_lt in C by assumption. destruct C as (C1 & C2 & _).
  assert (E : SFadd prec emax (B2SF a) (B2SF b) = B2SF (Bplus mode_NE a b)).
  { case a as [sx|sx| |sx mx ex Bx]; case b as [sy|sy| |sy my ey By]; [now (trivial || simpl; case Bool.eqb)..|]. apply normalize_NE. }
  rewrite E. destruct (fin_bin _ C2) as [G1 G2]. split; [exact G1|]. now rewrite G2.
Qed.
Lemma sub_R x y : fin x -> fin y -> Rabs (rnd (val x - val y)) < bpow radix2 emax ->
  fin (SFsub prec emax x y) /\ val (SFsub prec emax x y) = rnd (val x - val y).
Proof.
  intros [Vx Fx] [Vy Fy] L. destruct (take_bin x Vx) as (a & <- & Ga & Ra), (take_bin y Vy) as (b & <- & Gb & Rb). rewrite <- Ra, <- Rb in *.
  rewrite Fx in Ga. rewrite Fy in Gb.
  pose proof (Bminus_correct prec emax _ _ mode_NE a b Ga Gb) as C.
  change (SpecFloat.fexp prec emax) with fexp in C. change (round_mode mode_NE) with ZnearestE in C. fold (rnd (B2R a - B2R b)) in C.
  rewrite small_lt in C by assumption. destruct C as (C1 & C2 & _).
  assert (E : SFsub prec emax (B2SF a) (B2SF b) = B2SF (Bminus mode_NE a b)).
  { case a as [sx|sx| |sx mx ex Bx]; case b as [sy|sy| |sy my ey By]; [now (trivial || simpl; case Bool.eqb)..|]. simpl. unfold Zminus. rewrite <- cond_Zopp_negb. apply normalize_NE. }
  rewrite E. destruct (fin_bin _ C2) as [G1 G2]. split; [exact G1|]. now rewrite G2.
Qed.
Lemma normalize_R m e z : Rabs (rnd (F2R (Float radix2 m e))) < bpow radix2 emax ->
  fin (SpecFloat.binary_normalize prec emax m e z) /\ val (SpecFloat.binary_normalize prec emax m e z) = rnd (F2R (Float radix2 m e)).
Proof.
  intros L. pose proof (binary_normalize_correct prec emax Hprec Hmax mode_NE m e z) as C. cbv zeta in C.
  change (SpecFloat.fexp prec emax) with fexp in C. change (round_mode mode_NE) with ZnearestE in C. fold (rnd (F2R (Float radix2 m e))) in C.
  rewrite small_lt in C by assumption. destruct C as (C1 & C2 & _). rewrite normalize_NE. destruct (fin_bin _ C2) as [G1 G2]. split; [exact G1|]. now rewrite G2.
Qed.
Lemma sign_R (x : binary_float prec emax) : is_finite x = true -> B2R x <> 0 -> Bsign x = Rlt_bool (B2R x) 0.
Proof.
  intros F N. destruct x as [s|s| |s p e B]; cbn in F, N; try discriminate; [now elim N|]. cbn [Bsign B2R]. destruct s; symmetry.
  - apply Rlt_bool_true. apply F2R_lt_0. reflexivity.
  - apply Rlt_bool_false. apply F2R_ge_0. cbn. lia.
Qed.
(** the product overflows to an infinity of the right sign *)
Lemma mul_overflow x y : fin x -> fin y -> bpow radix2 emax <= Rabs (rnd (val x * val y)) ->
  SFmul prec emax x y = S754_infinity (Rlt_bool (val x * val y) 0).
Proof.
  intros [Vx Fx] [Vy Fy] L. destruct (take_bin x Vx) as (a & <- & Ga & Ra), (take_bin y Vy) as (b & <- & Gb & Rb). rewrite <- Ra, <- Rb in *.
  assert (N : B2R a * B2R b <> 0).
  { intros E. rewrite E in L. unfold rnd in L. rewrite round_0 in L by typeclasses eauto. rewrite Rabs_R0 in L. pose proof (bpow_gt_0 radix2 emax). lra. }
  pose proof (Bmult_correct prec emax _ _ mode_NE a b) as C.
  change (SpecFloat.fexp prec emax) with fexp in C. change (round_mode mode_NE) with ZnearestE in C. fold (rnd (B2R a * B2R b)) in C.
  rewrite Rlt_bool_false in C by assumption.
  assert (E : SFmul prec emax (B2SF a) (B2SF b) = B2SF (Bmult mode_NE a b)).
  { case a as [sx|sx| |sx mx ex Bx]; case b as [sy|sy| |sy my ey By]; [now trivial..|]. simpl. rewrite B2SF_SF2B. apply aux_NE. }
  rewrite E, C. unfold binary_overflow. cbn. f_equal.
  rewrite Fx in Ga. rewrite Fy in Gb. rewrite (sign_R a), (sign_R b); auto; try (intros Z; apply N; rewrite Z; ring).
  assert (B2R a <> 0) by (intros Z; apply N; rewrite Z; ring). assert (B2R b <> 0) by (intros Z; apply N; rewrite Z; ring).
  destruct (Rlt_bool_spec (B2R a) 0), (Rlt_bool_spec (B2R b) 0), (Rlt_bool_spec (B2R a * B2R b) 0); cbn; try reflexivity; exfalso; nra.
Qed.
(** the error of one rounding *)
Lemma rnd_error x : exists e d, Rabs e <= / 2 * bpow radix2 (- prec + 1) /\ Rabs d <= / 2 * bpow radix2 emin /\ rnd x = x * (1 + e) + d.
Proof. destruct (error_N_FLT radix2 emin prec Hprec (fun n => negb (Z.even n)) x) as (e & d & A & B & _ & D). exists e, d. auto. Qed.
Lemma rnd_exact m e : (Z.abs m < 2 ^ prec)%Z -> (emin <= e)%Z -> rnd (F2R (Float radix2 m e)) = F2R (Float radix2 m e).
Proof.
  intros A B. unfold rnd. apply round_generic; [typeclasses eauto|]. unfold fexp, SpecFloat.fexp. apply generic_format_FLT. exists (Float radix2 m e); auto.
Qed.
End Arithmetic.
Lemma ltb_R prec emax x y : fin prec emax x -> fin prec emax y -> SFltb x y = Rlt_bool (SF2R radix2 x) (SF2R radix2 y).
Proof.
  intros [Vx Fx] [Vy Fy]. pose proof (Bltb_correct prec emax (SF2B x Vx) (SF2B y Vy)) as C. rewrite !is_finite_SF2B, !B2R_SF2B in C. specialize (C Fx Fy).
  unfold Bltb in C. rewrite !B2SF_SF2B in C. exact C.
Qed.
Lemma leb_R prec emax x y : fin prec emax x -> fin prec emax y -> SFleb x y = Rle_bool (SF2R radix2 x) (SF2R radix2 y).
Proof.
  intros [Vx Fx] [Vy Fy]. pose proof (Bleb_correct prec emax (SF2B x Vx) (SF2B y Vy)) as C. rewrite !is_finite_SF2B, !B2R_SF2B in C. specialize (C Fx Fy).
  unfold Bleb in C. rewrite !B2SF_SF2B in C. exact C.
Qed.

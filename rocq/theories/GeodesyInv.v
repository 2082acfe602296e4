(** * Geodesy in real numbers: places close to each other have close latitudes and heights (lemmas) *)
From Coq Require Import Reals Lra Psatz.
From Verif Require Import Geodesy GeodesyLemmas GeodesyEst GeodesyStep.
Open Scope R_scope.

Lemma Rminus_le_0 a b : 0 <= b - a -> a <= b. Proof. lra. Qed.
Definition B2 : R := 1 - E2.
Lemma B2_val : 0.9933 <= B2 <= 0.9934. Proof. unfold B2, E2. lra. Qed.
Lemma G_alt t : G t = cos t * cos t + B2 * (sin t * sin t).
Proof. unfold G, B2. pose proof (sin_cos_1 t). lra. Qed.
(** a point of the meridian plane inside or on the ellipse *)
Definition inside (w z : R) : Prop := B2 * (w * w) + z * z <= B2 * (semi_major_axis * semi_major_axis).
Lemma foot_inside t : B2 * (foot_w t * foot_w t) + foot_z t * foot_z t = B2 * (semi_major_axis * semi_major_axis).
Proof.
  pose proof (K_sq t) as Q. rewrite G_alt in Q. unfold foot_w, foot_z. fold B2.
  transitivity (B2 * (semi_major_axis * semi_major_axis) * (K t * K t * (cos t * cos t + B2 * (sin t * sin t)))); [ring|]. rewrite Q. ring.
Qed.
(** the ellipse lies below its tangents *)
Lemma tangent t w z : inside w z -> w * cos t + z * sin t <= foot_w t * cos t + foot_z t * sin t.
Proof.
  intros H. unfold inside in H. pose proof (K_sq t) as Q. pose proof (G_pos t) as Gp. pose proof (K_pos t) as Kp. pose proof B2_val as Bv.
  replace (foot_w t * cos t + foot_z t * sin t) with (semi_major_axis * (K t * G t)) by (rewrite G_alt; unfold foot_w, foot_z; fold B2; ring).
  assert (R0 : 0 <= semi_major_axis * (K t * G t)). { apply Rmult_le_pos; [unfold semi_major_axis; lra|apply Rmult_le_pos; lra]. }
  apply Rsqr_incr_0_var; [|exact R0]. unfold Rsqr.
  replace (semi_major_axis * (K t * G t) * (semi_major_axis * (K t * G t))) with (semi_major_axis * semi_major_axis * G t * (K t * K t * G t)) by ring. rewrite Q, Rmult_1_r.
  apply Rmult_le_reg_l with B2; [lra|].
  apply Rle_trans with ((B2 * (w * w) + z * z) * G t).
  2:{ replace (B2 * (semi_major_axis * semi_major_axis * G t)) with (B2 * (semi_major_axis * semi_major_axis) * G t) by ring. apply Rmult_le_compat_r; lra. }
  rewrite G_alt. apply Rminus_le_0.
  replace (_ - _) with ((B2 * (w * sin t) - z * cos t) * (B2 * (w * sin t) - z * cos t)) by ring. apply Rle_0_sqr.
Qed.
Lemma below_inside t h : - 1000000 <= h <= 0 -> inside (at_w h t) (at_z h t).
Proof.
  intros H. unfold inside. rewrite <- (foot_inside t). unfold at_w, at_z, foot_w, foot_z. fold B2. pose proof B2_val as Bv. pose proof (K_bounds t) as Kb.
  assert (Av : semi_major_axis = 6378137) by reflexivity.
  assert (N : 6300000 <= semi_major_axis * B2 * K t). { rewrite Av. assert (6378137 * 0.9933 <= 6378137 * B2) by lra. nra. }
  assert (N2 : 6300000 <= semi_major_axis * K t) by (rewrite Av; lra).
  set (n1 := semi_major_axis * K t) in *. replace (semi_major_axis * (cos t * K t)) with (n1 * cos t) by (unfold n1; ring).
  replace (semi_major_axis * B2 * (sin t * K t)) with (semi_major_axis * B2 * K t * sin t) by ring. set (n2 := semi_major_axis * B2 * K t) in *.
  assert (W : (n1 * cos t + h * cos t) * (n1 * cos t + h * cos t) <= n1 * cos t * (n1 * cos t)).
  { replace ((n1 * cos t + h * cos t) * (n1 * cos t + h * cos t)) with (cos t * cos t * ((n1 + h) * (n1 + h))) by ring.
    replace (n1 * cos t * (n1 * cos t)) with (cos t * cos t * (n1 * n1)) by ring. apply Rmult_le_compat_l; [apply Rle_0_sqr|clear - H N2; nra]. }
  assert (Z : (n2 * sin t + h * sin t) * (n2 * sin t + h * sin t) <= n2 * sin t * (n2 * sin t)).
  { replace ((n2 * sin t + h * sin t) * (n2 * sin t + h * sin t)) with (sin t * sin t * ((n2 + h) * (n2 + h))) by ring.
    replace (n2 * sin t * (n2 * sin t)) with (sin t * sin t * (n2 * n2)) by ring. apply Rmult_le_compat_l; [apply Rle_0_sqr|clear - H N; nra]. }
  nra.
Qed.
(** projections are not longer than the vector *)
Lemma proj_le dw dz c s d : 0 <= d -> dw * dw + dz * dz <= d * d -> s * s + c * c = 1 -> dw * c + dz * s <= d.
Proof.
  intros D H SC. apply Rsqr_incr_0_var; [|exact D]. unfold Rsqr. apply Rle_trans with ((dw * dw + dz * dz) * (s * s + c * c)); [|rewrite SC; lra].
  apply Rminus_le_0. replace (_ - _) with ((dw * s - dz * c) * (dw * s - dz * c)) by ring. apply Rle_0_sqr.
Qed.
Lemma cos_delta t t' : cos (t - t') = cos t * cos t' + sin t * sin t'. Proof. apply cos_minus. Qed.
Lemma heights_close t h t' h' d : 0 <= d -> d < h -> - 1000000 <= h' ->
  (at_w h t - at_w h' t') * (at_w h t - at_w h' t') + (at_z h t - at_z h' t') * (at_z h t - at_z h' t') <= d * d ->
  0 <= h' /\ Rabs (h - h') <= d.
Proof.
  intros D Hh Hh' H. pose proof (sin_cos_1 t) as SC. pose proof (sin_cos_1 t') as SC'.
  pose proof (proj_le _ _ (cos t) (sin t) d D H SC) as P1.
  assert (H' : (at_w h' t' - at_w h t) * (at_w h' t' - at_w h t) + (at_z h' t' - at_z h t) * (at_z h' t' - at_z h t) <= d * d) by (eapply Rle_trans; [|exact H]; right; ring).
  pose proof (proj_le _ _ (cos t') (sin t') d D H' SC') as P2. clear H H'.
  assert (Eh : at_w h t * cos t + at_z h t * sin t = foot_w t * cos t + foot_z t * sin t + h).
  { unfold at_w, at_z. transitivity (foot_w t * cos t + foot_z t * sin t + h * (sin t * sin t + cos t * cos t)); [ring|rewrite SC; ring]. }
  assert (Eh' : at_w h' t' * cos t' + at_z h' t' * sin t' = foot_w t' * cos t' + foot_z t' * sin t' + h').
  { unfold at_w, at_z. transitivity (foot_w t' * cos t' + foot_z t' * sin t' + h' * (sin t' * sin t' + cos t' * cos t')); [ring|rewrite SC'; ring]. }
  assert (h0 : 0 <= h').
  { apply Rnot_lt_le. intros N. pose proof (tangent t _ _ (below_inside t' h' ltac:(lra))) as T. lra. }
  split; [exact h0|]. pose proof (COS_bound (t - t')) as CB. rewrite cos_delta in CB.
  pose proof (tangent t (foot_w t') (foot_z t') ltac:(unfold inside; rewrite foot_inside; lra)) as T1.
  pose proof (tangent t' (foot_w t) (foot_z t) ltac:(unfold inside; rewrite foot_inside; lra)) as T2.
  assert (E1 : at_w h' t' * cos t + at_z h' t' * sin t = foot_w t' * cos t + foot_z t' * sin t + h' * (cos t * cos t' + sin t * sin t')) by (unfold at_w, at_z; ring).
  assert (E2 : at_w h t * cos t' + at_z h t * sin t' = foot_w t * cos t' + foot_z t * sin t' + h * (cos t * cos t' + sin t * sin t')) by (unfold at_w, at_z; ring).
  assert (L1 : h' * (cos t * cos t' + sin t * sin t') <= h') by nra. assert (L2 : h * (cos t * cos t' + sin t * sin t') <= h) by nra.
  apply Rabs_le. lra.
Qed.
(** strictly convex: the normals at two points of the ellipse differ at least so much *)
Lemma convex t t' : semi_major_axis * (0.98 * (sin (t - t') * sin (t - t'))) <=
  (foot_w t - foot_w t') * (cos t - cos t') + (foot_z t - foot_z t') * (sin t - sin t').
Proof.
  set (L := cos t * cos t' + B2 * (sin t * sin t')).
  replace ((foot_w t - foot_w t') * (cos t - cos t') + (foot_z t - foot_z t') * (sin t - sin t')) with (semi_major_axis * (K t * (G t - L) + K t' * (G t' - L))).
  2:{ rewrite !G_alt. unfold L, foot_w, foot_z. fold B2. ring. }
  apply Rmult_le_compat_l; [unfold semi_major_axis; lra|].
  pose proof (K_sq t) as Q. pose proof (K_sq t') as Q'. pose proof (K_bounds t) as Kb. pose proof (K_bounds t') as Kb'. pose proof B2_val as Bv.
  assert (Lag : G t * G t' - L * L = B2 * (sin (t - t') * sin (t - t'))). { rewrite sin_minus, !G_alt. unfold L. ring. }
  assert (X0 : 0 <= sin (t - t') * sin (t - t')) by apply Rle_0_sqr. set (x := sin (t - t') * sin (t - t')) in *.
  pose proof (G_bounds t) as Gb. pose proof (G_bounds t') as Gb'. fold B2 in Gb, Gb'.
  set (g := K t * G t). set (g' := K t' * G t').
  assert (gk : K t * g = 1) by (unfold g; lra). assert (gk' : K t' * g' = 1) by (unfold g'; lra).
  assert (gg : g * g = G t) by (unfold g; replace (K t * G t * (K t * G t)) with (K t * K t * G t * G t) by ring; rewrite Q; ring).
  assert (gg' : g' * g' = G t') by (unfold g'; replace (K t' * G t' * (K t' * G t')) with (K t' * K t' * G t' * G t') by ring; rewrite Q'; ring).
  assert (gb : 0.9966 <= g <= 1) by (clear - gk Kb; split; apply Rnot_lt_le; intros; nra).
  assert (gb' : 0.9966 <= g' <= 1) by (clear - gk' Kb'; split; apply Rnot_lt_le; intros; nra).
  assert (Lg : (g * g' - L) * (g * g' + L) = B2 * x). { rewrite <- Lag, <- gg, <- gg'. ring. }
  assert (L1 : L <= g * g'). { apply Rnot_lt_le. intros N. assert (0 < g * g' + L) by nra. assert (0 <= B2 * x) by (apply Rmult_le_pos; lra). nra. }
  assert (g1 : 0.993 <= g * g' <= 1) by (clear - gb gb'; nra).
  assert (D1 : 0.4966 * x <= g * g' - L).
  { apply Rmult_le_reg_r with 2; [lra|]. apply Rle_trans with (B2 * x); [nra|]. rewrite <- Lg. apply Rmult_le_compat_l; lra. }
  replace (K t * (G t - L) + K t' * (G t' - L)) with ((g * g' - L) * (K t + K t')).
  2:{ rewrite <- gg, <- gg'. transitivity ((K t * g) * g' + (K t' * g') * g - L * (K t + K t')); [ring|]. rewrite gk, gk'.
      transitivity ((K t * g) * g + (K t' * g') * g' - L * (K t + K t')); [rewrite gk, gk'; ring|ring]. }
  apply Rle_trans with (0.4966 * x * 2); [lra|]. apply Rmult_le_compat; lra.
Qed.
Lemma latitudes_close t h t' h' : 0 <= t <= PI / 2 -> 0 <= t' <= PI / 2 -> 0 <= h -> 0 <= h' ->
  (at_w h t - at_w h' t') * (at_w h t - at_w h' t') + (at_z h t - at_z h' t') * (at_z h t - at_z h' t') <= 0.002 * 0.002 ->
  Rabs (t - t') <= 0.0000000005.
Proof.
  intros Ht Ht' Hh Hh' H. set (de := t - t'). pose proof PI_RGT_0 as PIp. pose proof (PI_4) as PI4.
  assert (Dr : - (PI / 2) <= de <= PI / 2) by (unfold de; lra).
  assert (Cp : 0 <= cos de) by (apply cos_ge_0; lra).
  set (q := sin (de / 2)).
  assert (Ecd : cos de = 1 - 2 * (q * q)). { replace de with (2 * (de / 2)) at 1 by field. rewrite cos_2a_sin. unfold q. ring. }
  assert (Esd : sin de * sin de = (1 - cos de) * (1 + cos de)). { pose proof (sin_cos_1 de). lra. }
  set (nw := cos t - cos t'). set (nz := sin t - sin t').
  assert (NN : nw * nw + nz * nz = 4 * (q * q)).
  { unfold nw, nz. pose proof (sin_cos_1 t). pose proof (sin_cos_1 t'). pose proof (cos_delta t t') as CD. fold de in CD. lra. }
  set (dw := at_w h t - at_w h' t') in *. set (dz := at_z h t - at_z h' t') in *.
  assert (CSch : dw * nw + dz * nz <= 0.004 * Rabs q).
  { pose proof (Rabs_pos q). assert (Qq : Rabs q * Rabs q = q * q) by (rewrite <- Rabs_mult; apply Rabs_pos_eq; apply Rle_0_sqr). apply Rsqr_incr_0_var; [|lra]. unfold Rsqr.
    replace (0.004 * Rabs q * (0.004 * Rabs q)) with (0.002 * 0.002 * (4 * (Rabs q * Rabs q))) by lra. rewrite Qq, <- NN.
    apply Rle_trans with ((dw * dw + dz * dz) * (nw * nw + nz * nz)).
    - apply Rminus_le_0. replace (_ - _) with ((dw * nz - dz * nw) * (dw * nz - dz * nw)) by ring. apply Rle_0_sqr.
    - apply Rmult_le_compat_r; [|exact H]. rewrite NN. pose proof (Rle_0_sqr q) as Z. unfold Rsqr in Z. lra. }
  assert (Lo : semi_major_axis * (0.98 * (sin de * sin de)) <= dw * nw + dz * nz).
  { pose proof (convex t t') as Cv. fold de nw nz in Cv.
    replace (dw * nw + dz * nz) with ((foot_w t - foot_w t') * nw + (foot_z t - foot_z t') * nz + (h + h') * (1 - cos de)).
    2:{ pose proof (sin_cos_1 t) as S1. pose proof (sin_cos_1 t') as S2. pose proof (cos_delta t t') as CD. fold de in CD. rewrite CD. unfold dw, dz, at_w, at_z, nw, nz.
        replace (h + h') with (h * (sin t * sin t + cos t * cos t) + h' * (sin t' * sin t' + cos t' * cos t')) by (rewrite S1, S2; ring).
        transitivity ((foot_w t - foot_w t') * (cos t - cos t') + (foot_z t - foot_z t') * (sin t - sin t') + h * (1 - (cos t * cos t' + sin t * sin t')) + h' * (1 - (cos t * cos t' + sin t * sin t'))).
        - rewrite S1, S2. ring.
        - pose proof S1 as S1'. pose proof S2 as S2'.
          replace ((foot_w t + h * cos t - (foot_w t' + h' * cos t')) * (cos t - cos t') + (foot_z t + h * sin t - (foot_z t' + h' * sin t')) * (sin t - sin t'))
            with ((foot_w t - foot_w t') * (cos t - cos t') + (foot_z t - foot_z t') * (sin t - sin t') + h * (sin t * sin t + cos t * cos t - (cos t * cos t' + sin t * sin t')) + h' * (sin t' * sin t' + cos t' * cos t' - (cos t * cos t' + sin t * sin t'))) by ring.
          rewrite S1, S2. reflexivity. }
    assert (0 <= (h + h') * (1 - cos de)) by (apply Rmult_le_pos; [lra|pose proof (COS_bound de); lra]). lra. }
  pose proof (Rle_trans _ _ _ Lo CSch) as U. clear Lo CSch NN H Hh Hh'.
  rewrite Esd in U. unfold semi_major_axis in U.
  assert (Qq : Rabs q * Rabs q = q * q) by (rewrite <- Rabs_mult; apply Rabs_pos_eq; apply Rle_0_sqr). pose proof (Rabs_pos q) as Q0.
  rewrite Ecd in U, Cp. rewrite <- Qq in U, Cp. remember (Rabs q) as y eqn:Ey.
  assert (Y1 : y <= 0.00000001). { apply Rnot_lt_le. intros N. nra. }
  assert (Y2 : y <= 0.00000000017). { apply Rnot_lt_le. intros N. assert (0 <= y * y <= 0.001) by nra. nra. }
  destruct (mvt0 sin cos (de / 2) D_sin) as (x & Ex & Ix). rewrite sin_0, Rminus_0_r in Ex.
  assert (Cx : 0.7 <= cos x).
  { assert (Xr : - (PI / 4) <= x <= PI / 4). { assert (Z : Rabs (de / 2) <= PI / 4) by (apply Rabs_le; lra). apply Rabs_def2b. lra. }
    pose proof (cos_ge_0 x ltac:(lra) ltac:(lra)) as X1. pose proof (cos_ge_0 (2 * x) ltac:(lra) ltac:(lra)) as X2. rewrite cos_2a_cos in X2. apply Rnot_lt_le. intros N. nra. }
  assert (Eq : Rabs q = cos x * Rabs (de / 2)). { unfold q. rewrite Ex, Rabs_mult. f_equal. apply Rabs_pos_eq. lra. }
  rewrite <- Ey in Eq. replace de with (2 * (de / 2)) by field. rewrite Rabs_mult, (Rabs_pos_eq 2) by lra. pose proof (Rabs_pos (de / 2)). nra.
Qed.

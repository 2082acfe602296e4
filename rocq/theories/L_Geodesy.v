(** * Properties of the geodesy functions (C57) *)
From Coq Require Import ZArith Reals Lra Psatz.
From Verif Require Import Geodesy SpecGeodesy GeodesyLemmas GeodesyEst GeodesyStep GeodesyInv.
Open Scope R_scope.

Lemma triple (a b c a' b' c' : R) : a = a' -> b = b' -> c = c' -> (a, b, c) = (a', b', c'). Proof. now intros -> -> ->. Qed.
(** ** Longitude *)
Lemma sqrt_sum_pos x y : 0 <= x * x + y * y. Proof. nra. Qed.
Lemma atan2_polar y x : let w := sqrt (x * x + y * y) in w * cos (atan2 y x) = x /\ w * sin (atan2 y x) = y.
Proof.
  cbv zeta. set (w := sqrt (x * x + y * y)).
  assert (A : forall v u, v <> 0 -> sqrt (v * v + u * u) * cos (atan (u / v)) = Rabs v /\ sqrt (v * v + u * u) * sin (atan (u / v)) = u / v * Rabs v).
  { intros v u N. assert (E : sqrt (v * v + u * u) = Rabs v * sqrt (1 + (u / v)²)).
    { rewrite <- sqrt_Rsqr_abs, <- sqrt_mult; [|apply Rle_0_sqr|pose proof (Rle_0_sqr (u / v)); lra]. f_equal. unfold Rsqr. field. exact N. }
    assert (P : 0 < sqrt (1 + (u / v)²)) by (apply sqrt_lt_R0; pose proof (Rle_0_sqr (u / v)); lra).
    rewrite cos_atan, sin_atan, E. split; field; try split; try lra; exact N. }
  unfold atan2. destruct (Rlt_dec 0 x) as [X|X].
  - destruct (A x y ltac:(lra)) as [A1' A2']. fold w in A1', A2'. rewrite A1', A2', Rabs_pos_eq by lra. split; [reflexivity|field; lra].
  - destruct (Rlt_dec x 0) as [X'|X'].
    + destruct (A x y ltac:(lra)) as [A1' A2']. fold w in A1', A2'. rewrite Rabs_left in A1', A2' by lra.
      destruct (Rle_dec 0 y).
      * rewrite neg_cos, neg_sin. split; [lra|]. replace (w * - sin (atan (y / x))) with (- (y / x * - x)) by lra. field. lra.
      * replace (atan (y / x) - PI) with (- (PI - atan (y / x))) by ring. rewrite cos_neg, sin_neg, Rtrigo_facts.cos_pi_minus, sin_PI_x. split; [lra|].
        replace (w * - sin (atan (y / x))) with (- (y / x * - x)) by lra. field. lra.
    + assert (x = 0) by lra. subst x. assert (W : w = Rabs y) by (unfold w; replace (0 * 0 + y * y) with (y²) by (unfold Rsqr; ring); apply sqrt_Rsqr_abs).
      rewrite W. destruct (Rlt_dec 0 y); [rewrite cos_PI2, sin_PI2, Rabs_pos_eq by lra; lra|].
      destruct (Rlt_dec y 0); [rewrite cos_neg, sin_neg, cos_PI2, sin_PI2, Rabs_left by lra; lra|].
      assert (y = 0) by lra. subst y. rewrite Rabs_R0. lra.
Qed.
Lemma atan2_range y x : - PI < atan2 y x <= PI.
Proof.
  pose proof PI_RGT_0. unfold atan2. pose proof (atan_bound (y / x)) as B. destruct (Rlt_dec 0 x); [lra|]. destruct (Rlt_dec x 0).
  - destruct (Rle_dec 0 y).
    + split; [lra|]. assert (y / x <= 0). { unfold Rdiv. assert (/ x < 0) by (apply Rinv_lt_0_compat; lra). nra. }
      destruct (Rle_lt_or_eq_dec _ _ H0) as [L|L]; [apply atan_increasing in L; rewrite atan_0 in L; lra|rewrite L, atan_0; lra].
    + assert (0 < y / x). { unfold Rdiv. assert (/ x < 0) by (apply Rinv_lt_0_compat; lra). nra. } apply atan_increasing in H0. rewrite atan_0 in H0. lra.
  - destruct (Rlt_dec 0 y); [lra|]. destruct (Rlt_dec y 0); lra.
Qed.
Lemma angle_unique a b : - PI < a <= PI -> - PI < b <= PI -> cos a = cos b -> sin a = sin b -> a = b.
Proof.
  intros Ha Hb Hc Hs. assert (C : cos (a - b) = 1). { rewrite cos_minus, Hc, Hs. pose proof (sin_cos_1 b). lra. }
  replace (a - b) with (2 * ((a - b) / 2)) in C by field. rewrite cos_2a_sin in C.
  assert (Z : sin ((a - b) / 2) = 0) by nra.
  destruct (Rtotal_order a b) as [L|[E|L]]; [|exact E|].
  - pose proof (sin_lt_0_var ((a - b) / 2) ltac:(lra) ltac:(lra)). lra.
  - pose proof (sin_gt_0 ((a - b) / 2) ltac:(lra) ltac:(lra)). lra.
Qed.

(** ** The functions in terms of the meridian plane *)
Lemma to_ecef_meridian lat lon h : geodetic_lla_to_ecef lat lon h = (at_w h lat * cos lon, at_w h lat * sin lon, at_z h lat).
Proof.
  unfold geodetic_lla_to_ecef. cbv zeta. change (1 - E2 * sin lat * sin lat) with (G lat). unfold Rdiv. change (/ sqrt (G lat)) with (K lat).
  unfold at_w, at_z, foot_w, foot_z. apply triple; ring.
Qed.
Lemma to_lla_meridian x y z : 6000000 * 6000000 <= x * x + y * y + z * z -> let w := sqrt (x * x + y * y) in
  ecef_to_geodetic_lla x y z =
  (let '(t, s, c) := estimate w (Rabs z) in let (p, h) := refine w (Rabs z) s c in ((if Rlt_dec z 0 then (t + p) * -1 else t + p), atan2 y x, h)).
Proof.
  intros Hr. cbv zeta. unfold ecef_to_geodetic_lla, estimate. cbv zeta.
  assert (Z : Rabs z * Rabs z = z * z) by (rewrite <- Rabs_mult; apply Rabs_pos_eq; nra).
  assert (W : sqrt (x * x + y * y) * sqrt (x * x + y * y) = x * x + y * y) by (apply sqrt_sqrt; nra).
  rewrite W, Z. set (w := sqrt (x * x + y * y)) in *. set (r2 := x * x + y * y + z * z). set (r := sqrt r2).
  assert (R2 : r * r = r2) by (unfold r; apply sqrt_sqrt; unfold r2; nra).
  assert (C2 : (x * x + y * y) / r2 = w / r * (w / r)). { rewrite <- W, <- R2. unfold Rdiv. rewrite Rinv_mult. ring. }
  assert (S2 : z * z / r2 = Rabs z / r * (Rabs z / r)). { rewrite <- Z, <- R2. unfold Rdiv. rewrite Rinv_mult. ring. }
  rewrite C2, S2. destruct (Rlt_dec 0.3 (w / r * (w / r))).
  - reflexivity.
  - set (c := w / r * (1 - Rabs z / r * (Rabs z / r) * (A5 - A2 / r - w / r * (w / r) * (A3 - A4 / r)) / r)).
    unfold refine. cbv zeta. destruct (Rle_dec 0 (1 - c * c)) as [N|N].
    + rewrite sqrt_sqrt by exact N. reflexivity.
    + exfalso. apply N. clear N.
      assert (r6 : 6000000 <= r). { unfold r. rewrite <- (sqrt_square 6000000) by lra. apply sqrt_le_1_alt. exact Hr. }
      assert (ri : 0 < / r) by (apply Rinv_0_lt_compat; lra).
      assert (w0 : 0 <= w / r) by (unfold Rdiv; apply Rmult_le_pos; [apply sqrt_pos|lra]). assert (z0 : 0 <= Rabs z / r) by (unfold Rdiv; apply Rmult_le_pos; [apply Rabs_pos|lra]).
      assert (U : w / r * (w / r) + Rabs z / r * (Rabs z / r) = 1). { rewrite <- C2, <- S2. fold r2. unfold r2. field. apply Rgt_not_eq. unfold r2 in *. lra. }
      pose proof (estimate_cos r (w / r) (Rabs z / r) 1 r6 w0 z0 U ltac:(lra) ltac:(lra)) as Q. cbv zeta in Q. fold c in Q. destruct Q as (Q1 & _). nra.
Qed.

(*@C57 The functions agree with the earth of WGS-84: there is an ellipsoid with the equatorial radius of WGS-84, and with its polar radius to within a tenth of a micrometre, such that the geocentric place given for a latitude, longitude and altitude is reached from a point of the ellipsoid by going up the altitude along the direction that the latitude and longitude name, which is perpendicular to the ellipsoid at that point. *)
Lemma geodesy_place_pf : exists b, (Rabs (b - polar_radius) <= 0.0000001)%R /\ forall latitude longitude altitude, exists foot k,
  on_ellipsoid b foot /\ (0 < k)%R /\ outward b foot = scale k (up latitude longitude) /\ geodetic_lla_to_ecef latitude longitude altitude = plus foot (scale altitude (up latitude longitude)).
Proof.
  pose proof B2_val as Bv. set (b := semi_major_axis * sqrt B2). assert (Sp : 0 < sqrt B2) by (apply sqrt_lt_R0; lra). assert (Sq : sqrt B2 * sqrt B2 = B2) by (apply sqrt_sqrt; lra).
  assert (bb : b * b = semi_major_axis * semi_major_axis * B2) by (unfold b; replace (semi_major_axis * sqrt B2 * (semi_major_axis * sqrt B2)) with (semi_major_axis * semi_major_axis * (sqrt B2 * sqrt B2)) by ring; rewrite Sq; ring).
  exists b. split.
  - unfold b, polar_radius, equatorial_radius. fold semi_major_axis. change 6378137 with semi_major_axis. rewrite <- Rmult_minus_distr_l, Rabs_mult, Rabs_pos_eq by (unfold semi_major_axis; lra).
    set (q := 1 - / 298.257223563). assert (Qe : 298.257223563 * q = 297.257223563) by (unfold q; rewrite Rmult_minus_distr_l, Rinv_r by lra; lra).
    assert (Qv : 0.9966471893352525 <= q <= 0.9966471893352526) by lra.
    assert (Qq : 0.9966471893352525 * 0.9966471893352525 <= q * q <= 0.9966471893352526 * 0.9966471893352526) by (split; apply Rmult_le_compat; lra). clearbody q.
    assert (D : Rabs ((sqrt B2 - q) * (sqrt B2 + q)) <= 0.00000000000001).
    { replace ((sqrt B2 - q) * (sqrt B2 + q)) with (B2 - q * q) by (transitivity (sqrt B2 * sqrt B2 - q * q); [rewrite Sq; reflexivity|ring]). unfold B2, E2. apply Rabs_le. lra. }
    rewrite Rabs_mult, (Rabs_pos_eq (sqrt B2 + q)) in D by lra. pose proof (Rabs_pos (sqrt B2 - q)). unfold semi_major_axis. nra.
  - intros lat lon h. exists (foot_w lat * cos lon, foot_w lat * sin lon, foot_z lat), (K lat / semi_major_axis).
    pose proof (K_pos lat) as Kp. pose proof (sin_cos_1 lon) as SC. pose proof (foot_inside lat) as F.
    assert (Av : semi_major_axis <> 0) by (unfold semi_major_axis; lra).
    split; [|split; [|split]].
    + unfold on_ellipsoid. change equatorial_radius with semi_major_axis. rewrite bb.
      replace (foot_w lat * cos lon * (foot_w lat * cos lon) + foot_w lat * sin lon * (foot_w lat * sin lon)) with (foot_w lat * foot_w lat * (sin lon * sin lon + cos lon * cos lon)) by ring. rewrite SC, Rmult_1_r.
      replace (foot_w lat * foot_w lat / (semi_major_axis * semi_major_axis) + foot_z lat * foot_z lat / (semi_major_axis * semi_major_axis * B2))
        with ((B2 * (foot_w lat * foot_w lat) + foot_z lat * foot_z lat) / (semi_major_axis * semi_major_axis * B2)) by (field; lra).
      rewrite F. field. lra.
    + apply Rdiv_lt_0_compat; [exact Kp|unfold semi_major_axis; lra].
    + unfold outward, scale, up. change equatorial_radius with semi_major_axis. rewrite bb. unfold foot_w, foot_z. fold B2. apply triple; field; lra.
    + rewrite to_ecef_meridian. unfold plus, scale, up, at_w, at_z. apply triple; ring.
Qed.

Lemma dist_meridian W Z lon w z : distance (W * cos lon, W * sin lon, Z) (w * cos lon, w * sin lon, z) = sqrt ((W - w) * (W - w) + (Z - z) * (Z - z)).
Proof.
  unfold distance. f_equal. pose proof (sin_cos_1 lon) as SC. transitivity ((W - w) * (W - w) * (sin lon * sin lon + cos lon * cos lon) + (Z - z) * (Z - z)); [ring|rewrite SC; ring].
Qed.
Lemma at_neg h t : at_w h (- t) = at_w h t /\ at_z h (- t) = - at_z h t.
Proof. unfold at_w, at_z, foot_w, foot_z, K, G. rewrite sin_neg, cos_neg. replace (1 - E2 * - sin t * - sin t) with (1 - E2 * sin t * sin t) by ring. split; ring. Qed.

(*@C57 A geocentric place, at least 6000 km from the centre of the earth and however far away, that is converted to latitude, longitude and altitude and back comes back within 2 millimetres. The latitude lies between the poles and the longitude in the half-open circle. *)
Lemma geodesy_there_and_back_pf : forall x y z, (6000000 <= distance earth_centre (x, y, z))%R ->
  let '(latitude, longitude, altitude) := ecef_to_geodetic_lla x y z in
  (- (PI / 2) <= latitude <= PI / 2 /\ - PI < longitude <= PI)%R /\ (distance (geodetic_lla_to_ecef latitude longitude altitude) (x, y, z) <= 0.002)%R.
Proof.
  intros x y z H.
  assert (H2 : 6000000 * 6000000 <= x * x + y * y + z * z).
  { unfold distance, earth_centre in H. assert (Q : (0 - x) * (0 - x) + (0 - y) * (0 - y) + (0 - z) * (0 - z) = x * x + y * y + z * z) by ring. rewrite Q in H.
    rewrite <- (sqrt_sqrt (x * x + y * y + z * z)) by nra. apply Rmult_le_compat; lra. }
  rewrite to_lla_meridian by exact H2. set (w := sqrt (x * x + y * y)).
  assert (W : w * w = x * x + y * y) by (apply sqrt_sqrt; nra). assert (Z : Rabs z * Rabs z = z * z) by (rewrite <- Rabs_mult; apply Rabs_pos_eq; nra).
  pose proof (meridian_close w (Rabs z) (sqrt_pos _) (Rabs_pos _) ltac:(rewrite W, Z; exact H2)) as Q. destruct (estimate w (Rabs z)) as [[t s] c]. destruct (refine w (Rabs z) s c) as [p h].
  destruct Q as (Q1 & Q2 & _). pose proof PI_RGT_0. split.
  - split; [destruct (Rlt_dec z 0); lra|apply atan2_range].
  - rewrite to_ecef_meridian. destruct (atan2_polar y x) as [Px Py]. fold w in Px, Py.
    replace (x, y, z) with (w * cos (atan2 y x), w * sin (atan2 y x), z) by (rewrite Px, Py; reflexivity). rewrite dist_meridian.
    rewrite <- (sqrt_square 0.002) by lra. apply sqrt_le_1_alt. eapply Rle_trans; [|exact Q2]. right. destruct (Rlt_dec z 0).
    + replace ((t + p) * -1) with (- (t + p)) by ring. destruct (at_neg h (t + p)) as [-> ->]. rewrite Rabs_left by lra. ring.
    + rewrite Rabs_pos_eq by lra. ring.
Qed.


Lemma at_w_nonneg h t : 0 <= h -> - (PI / 2) <= t <= PI / 2 -> 0 <= at_w h t.
Proof.
  intros Hh Ht. unfold at_w, foot_w. pose proof (K_pos t). pose proof (cos_ge_0 t ltac:(lra) ltac:(lra)).
  assert (0 <= semi_major_axis * (cos t * K t)) by (apply Rmult_le_pos; [unfold semi_major_axis; lra|apply Rmult_le_pos; lra]). assert (0 <= h * cos t) by (apply Rmult_le_pos; lra). lra.
Qed.
Lemma at_far h t : 0 <= h -> 6000000 * 6000000 <= at_w h t * at_w h t + at_z h t * at_z h t.
Proof.
  intros Hh. unfold at_w, at_z, foot_w, foot_z. fold B2. pose proof (K_bounds t) as Kb. pose proof B2_val as Bv. pose proof (sin_cos_1 t) as SC.
  replace (semi_major_axis * (cos t * K t) + h * cos t) with ((semi_major_axis * K t + h) * cos t) by ring.
  replace (semi_major_axis * B2 * (sin t * K t) + h * sin t) with ((semi_major_axis * B2 * K t + h) * sin t) by ring.
  assert (N1 : 6000000 <= semi_major_axis * K t + h) by (unfold semi_major_axis; lra).
  assert (N2 : 6000000 <= semi_major_axis * B2 * K t + h). { unfold semi_major_axis. assert (6300000 <= 6378137 * B2) by lra. nra. }
  set (n1 := semi_major_axis * K t + h) in *. set (n2 := semi_major_axis * B2 * K t + h) in *. clearbody n1 n2.
  assert (Q1 : 6000000 * 6000000 * (cos t * cos t) <= n1 * cos t * (n1 * cos t)).
  { replace (n1 * cos t * (n1 * cos t)) with (n1 * n1 * (cos t * cos t)) by ring. apply Rmult_le_compat_r; [apply Rle_0_sqr|apply Rmult_le_compat; lra]. }
  assert (Q2 : 6000000 * 6000000 * (sin t * sin t) <= n2 * sin t * (n2 * sin t)).
  { replace (n2 * sin t * (n2 * sin t)) with (n2 * n2 * (sin t * sin t)) by ring. apply Rmult_le_compat_r; [apply Rle_0_sqr|apply Rmult_le_compat; lra]. }
  lra.
Qed.
Lemma at_z_sign h t : 0 <= h -> 0 <= t <= PI / 2 -> 0 <= at_z h t /\ (0 < t -> 0 < at_z h t).
Proof.
  intros Hh Ht. pose proof PI_RGT_0. unfold at_z, foot_z. fold B2. pose proof B2_val. pose proof (K_bounds t).
  replace (semi_major_axis * B2 * (sin t * K t) + h * sin t) with ((semi_major_axis * B2 * K t + h) * sin t) by ring.
  assert (N : 0 < semi_major_axis * B2 * K t + h). { unfold semi_major_axis. assert (6300000 <= 6378137 * B2) by lra. nra. }
  split; [apply Rmult_le_pos; [lra|apply sin_ge_0; lra]|]. intros Hp. apply Rmult_lt_0_compat; [exact N|apply sin_gt_0; lra].
Qed.

(*@C57 A latitude, longitude and altitude (above the ellipsoid by more than 2 millimetres) that is converted to a geocentric place and back comes back: the latitude within half a billionth of a radian, the altitude within 2 millimetres, and the longitude exactly, except that it is lost at the poles. *)
Lemma geodesy_back_and_there_pf : forall latitude longitude altitude, (- (PI / 2) <= latitude <= PI / 2)%R -> (- PI < longitude <= PI)%R -> (0.002 < altitude)%R ->
  let '(x, y, z) := geodetic_lla_to_ecef latitude longitude altitude in
  let '(latitude', longitude', altitude') := ecef_to_geodetic_lla x y z in
  (Rabs (latitude' - latitude) <= 0.0000000005 /\ Rabs (altitude' - altitude) <= 0.002 /\ (Rabs latitude < PI / 2 -> longitude' = longitude))%R.
Proof.
  intros lat lon alt Hlat Hlon Halt. rewrite to_ecef_meridian. pose proof (sin_cos_1 lon) as SC. pose proof PI_RGT_0 as PIp.
  set (W := at_w alt lat). set (Z := at_z alt lat).
  assert (W0 : 0 <= W) by (apply at_w_nonneg; lra).
  assert (WW : W * cos lon * (W * cos lon) + W * sin lon * (W * sin lon) = W * W).
  { transitivity (W * W * (sin lon * sin lon + cos lon * cos lon)); [ring|rewrite SC; ring]. }
  assert (Far : 6000000 * 6000000 <= W * W + Z * Z) by (apply at_far; lra).
  assert (Sq : sqrt (W * W) = W) by (apply sqrt_square; exact W0).
  rewrite to_lla_meridian by (rewrite WW; exact Far). rewrite WW, Sq.
  assert (ZZ : Rabs Z * Rabs Z = Z * Z) by (rewrite <- Rabs_mult; apply Rabs_pos_eq; apply Rle_0_sqr).
  pose proof (meridian_close W (Rabs Z) W0 (Rabs_pos _) ltac:(rewrite ZZ; exact Far)) as Q. destruct (estimate W (Rabs Z)) as [[t s] c]. destruct (refine W (Rabs Z) s c) as [p h].
  destruct Q as (Q1 & Q2 & Q3). set (a := Rabs lat).
  assert (Ha : 0 <= a <= PI / 2) by (split; [apply Rabs_pos|apply Rabs_le; lra]).
  assert (EW : W = at_w alt a /\ Rabs Z = at_z alt a).
  { unfold a, W, Z. destruct (Rle_lt_dec 0 lat) as [L|L].
    - rewrite (Rabs_pos_eq lat) by lra. split; [reflexivity|]. apply Rabs_pos_eq. apply at_z_sign; lra.
    - rewrite (Rabs_left lat) by lra. destruct (at_neg alt (- lat)) as [N1 N2]. rewrite Ropp_involutive in N1, N2. rewrite N1, N2. split; [reflexivity|].
      rewrite Rabs_Ropp. apply Rabs_pos_eq. apply at_z_sign; lra. }
  destruct EW as [EW EZ]. rewrite EW, EZ in Q2.
  assert (Q2' : (at_w alt a - at_w h (t + p)) * (at_w alt a - at_w h (t + p)) + (at_z alt a - at_z h (t + p)) * (at_z alt a - at_z h (t + p)) <= 0.002 * 0.002) by (eapply Rle_trans; [|exact Q2]; right; ring).
  destruct (heights_close a alt (t + p) h 0.002 ltac:(lra) Halt ltac:(lra) Q2') as [h0 Hh].
  pose proof (latitudes_close a alt (t + p) h Ha Q1 ltac:(lra) h0 Q2') as Hl.
  split; [|split].
  - destruct (Rle_lt_dec 0 lat) as [L|L].
    + assert (Z0 : 0 <= Z) by (apply at_z_sign; lra). destruct (Rlt_dec Z 0); [lra|]. unfold a in Hl. rewrite (Rabs_pos_eq lat) in Hl by lra. rewrite Rabs_minus_sym. exact Hl.
    + assert (Z0 : Z < 0). { unfold Z. destruct (at_neg alt (- lat)) as [_ N2]. rewrite Ropp_involutive in N2. rewrite N2. pose proof (proj2 (at_z_sign alt (- lat) ltac:(lra) ltac:(lra)) ltac:(lra)). lra. }
      destruct (Rlt_dec Z 0); [|lra]. unfold a in Hl. rewrite (Rabs_left lat) in Hl by lra. replace ((t + p) * -1 - lat) with (- lat - (t + p)) by ring. exact Hl.
  - rewrite Rabs_minus_sym. exact Hh.
  - intros Hp. fold a in Hp. assert (Wp : 0 < W).
    { rewrite EW. unfold at_w, foot_w. pose proof (cos_gt_0 a ltac:(lra) ltac:(lra)) as Ca. pose proof (K_pos a).
      assert (0 < semi_major_axis * (cos a * K a)) by (apply Rmult_lt_0_compat; [unfold semi_major_axis; lra|apply Rmult_lt_0_compat; lra]). assert (0 < alt * cos a) by (apply Rmult_lt_0_compat; lra). lra. }
    destruct (atan2_polar (W * sin lon) (W * cos lon)) as [Px Py]. rewrite WW, Sq in Px, Py. apply Rmult_eq_reg_l in Px; [|lra]. apply Rmult_eq_reg_l in Py; [|lra].
    apply angle_unique; [apply atan2_range|exact Hlon|exact Px|exact Py].
Qed.

(*@C57 Places on the equator and on the axis convert exactly: latitude 0 and the distance from the axis less the equatorial radius, or latitude 90 degrees. Places mirrored in the plane of the equator have the opposite latitude and the same longitude and altitude. (For every place but the centre.) *)
Lemma geodesy_symmetry_pf :
  (forall x y, (x <> 0 \/ y <> 0)%R -> exists longitude, ecef_to_geodetic_lla x y 0 = (0, longitude, sqrt (x * x + y * y) - equatorial_radius)%R) /\
  (forall z, (0 < z)%R -> exists longitude altitude, ecef_to_geodetic_lla 0 0 z = (PI / 2, longitude, altitude)%R) /\
  (forall x y z latitude longitude altitude, (0 < z)%R -> ecef_to_geodetic_lla x y z = (latitude, longitude, altitude) -> ecef_to_geodetic_lla x y (- z) = (- latitude, longitude, altitude)%R).
Proof.
  split; [|split].
  - intros x y H. exists (atan2 y x). assert (P : 0 < x * x + y * y). { destruct H as [H|H]; apply Rsqr_pos_lt in H; unfold Rsqr in H; nra. }
    unfold ecef_to_geodetic_lla. cbv zeta. rewrite Rabs_R0. replace (x * x + y * y + 0 * 0) with (x * x + y * y) by ring.
    replace ((x * x + y * y) / (x * x + y * y)) with 1 by (field; lra). destruct (Rlt_dec 0.3 1) as [_|N]; [|lra].
    set (w := sqrt (x * x + y * y)). assert (E0 : forall a, 0 / w * a = 0) by (intros a; unfold Rdiv; ring). rewrite E0. destruct (Rlt_dec 0 0); [lra|].
    rewrite asin_0, ?Rmult_0_r, ?Rmult_0_l, ?Rminus_0_r, sqrt_1.
    replace (semi_major_axis / 1) with semi_major_axis by field. apply triple; [|reflexivity|]; unfold equatorial_radius, semi_major_axis, Rdiv; ring.
  - intros z H. eexists (atan2 0 0), _. unfold ecef_to_geodetic_lla. cbv zeta. replace (0 * 0 + 0 * 0) with 0 by ring. rewrite sqrt_0. assert (E1 : forall a, 0 / a = 0) by (intros a; unfold Rdiv; ring). rewrite !E1.
    destruct (Rlt_dec 0.3 0) as [N|_]; [lra|]. rewrite Rmult_0_l, acos_0. destruct (Rlt_dec z 0); [exfalso; lra|].
    apply triple; [|reflexivity|reflexivity]. rewrite !Rmult_0_r, !Rmult_0_l. unfold Rdiv. rewrite ?Rmult_0_r, ?Rmult_0_l. ring.
  - intros x y z lat lon alt H E. unfold ecef_to_geodetic_lla in *. cbv zeta in *. rewrite Rabs_Ropp. replace (- z * - z) with (z * z) by ring.
    destruct (Rlt_dec z 0) as [N|_]; [lra|]. destruct (Rlt_dec (- z) 0) as [_|N]; [|lra].
    destruct (Rlt_dec 0.3 ((x * x + y * y) / (x * x + y * y + z * z))); inversion E; subst; apply triple; try reflexivity; ring.
Qed.

(*@ex*)
(** A place 400 km above Greenwich latitude meets the hypotheses of both directions; the axis at the north pole too. *)
Example geodesy_example : (6000000 <= distance earth_centre (4000000, 3000, 5200000) /\ - (PI / 2) <= 0.9 <= PI / 2 /\ - PI < 0 <= PI /\ 0.002 < 400000)%R.
Proof.
  split; [|pose proof PI2_1; pose proof PI_RGT_0; lra]. unfold distance, earth_centre. rewrite <- (sqrt_square 6000000) by lra. apply sqrt_le_1_alt. lra.
Qed.

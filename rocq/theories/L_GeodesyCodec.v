(** * Places through the C-DIS codec, in metres (C57) *)
From Coq Require Import ZArith List Lia Bool SpecFloat Reals Lra Psatz Machin AltSeries.
From Flocq Require Import Core BinarySingleNaN.
From Verif Require Import Base CdisBase DisCommon DisHeader DisLists DisSimman DisLogistics DisWarfare DisEntity DisEmission DisRadio DisIff DisPdu DisPacket
  CdisRecords CdisBodies1 CdisBodies2 CdisIff CdisPdu CdisCodec1 CdisCodec2 CdisCodec3 SpecFloatValue SpecContent SpecCodec SpecBody Geodesy SpecGeodesy SpecPlace
  FloatReal FloatBits FloatBits64 L_CodecNum L_CodecContent GeodesyLemmas GeodesyEst GeodesyStep GeodesyInv L_Geodesy.
Import ListNotations. Open Scope R_scope.

Lemma PI_upper : PI <= 3.143.
Proof. destruct (PI_2_3_7_ineq 1) as [_ H]. unfold sum_f_R0, tg_alt, PI_2_3_7_tg, Ratan_seq in H. simpl in H. field_simplify in H. lra. Qed.

(** ** Distances *)
Lemma dist_sq p q d : 0 <= d -> distance p q <= d <-> (let '(x, y, z) := p in let '(x', y', z') := q in (x - x') * (x - x') + (y - y') * (y - y') + (z - z') * (z - z') <= d * d).
Proof.
  intros D. destruct p as [[x y] z], q as [[x' y'] z']. unfold distance. set (s := (x - x') * (x - x') + (y - y') * (y - y') + (z - z') * (z - z')). assert (S : 0 <= s) by (unfold s; pose proof (Rle_0_sqr (x - x')); pose proof (Rle_0_sqr (y - y')); pose proof (Rle_0_sqr (z - z')); unfold Rsqr in *; lra). split; intros H.
  - rewrite <- (sqrt_sqrt s S). pose proof (sqrt_pos s). apply Rmult_le_compat; assumption.
  - rewrite <- (sqrt_square d D). apply sqrt_le_1_alt. exact H.
Qed.
Lemma dist_pos p q : 0 <= distance p q. Proof. destruct p as [[x y] z], q as [[x' y'] z']. apply sqrt_pos. Qed.
Lemma dist_sym p q : distance p q = distance q p.
Proof. destruct p as [[x y] z], q as [[x' y'] z']. unfold distance. f_equal. ring. Qed.
Lemma dist_triangle p q r : distance p r <= distance p q + distance q r.
Proof.
  set (A := distance p q). set (B := distance q r). assert (A0 : 0 <= A) by apply dist_pos. assert (B0 : 0 <= B) by apply dist_pos.
  pose proof (proj1 (dist_sq p q A A0) (Rle_refl _)) as HA. pose proof (proj1 (dist_sq q r B B0) (Rle_refl _)) as HB. clearbody A B.
  apply dist_sq; [lra|]. destruct p as [[x y] z], q as [[x' y'] z'], r as [[x2 y2] z2].
  set (a1 := x - x') in *. set (a2 := y - y') in *. set (a3 := z - z') in *. set (b1 := x' - x2) in *. set (b2 := y' - y2) in *. set (b3 := z' - z2) in *.
  replace (x - x2) with (a1 + b1) by (unfold a1, b1; ring). replace (y - y2) with (a2 + b2) by (unfold a2, b2; ring). replace (z - z2) with (a3 + b3) by (unfold a3, b3; ring).
  clearbody a1 a2 a3 b1 b2 b3. clear x y z x' y' z' x2 y2 z2.
  assert (C : a1 * b1 + a2 * b2 + a3 * b3 <= A * B).
  { apply Rsqr_incr_0_var; [|apply Rmult_le_pos; assumption]. unfold Rsqr.
    apply Rle_trans with ((a1 * a1 + a2 * a2 + a3 * a3) * (b1 * b1 + b2 * b2 + b3 * b3)).
    - apply Rminus_le_0. replace (_ - _) with ((a1 * b2 - a2 * b1) * (a1 * b2 - a2 * b1) + (a1 * b3 - a3 * b1) * (a1 * b3 - a3 * b1) + (a2 * b3 - a3 * b2) * (a2 * b3 - a3 * b2)) by ring.
      pose proof (Rle_0_sqr (a1 * b2 - a2 * b1)). pose proof (Rle_0_sqr (a1 * b3 - a3 * b1)). pose proof (Rle_0_sqr (a2 * b3 - a3 * b2)). unfold Rsqr in *. lra.
    - replace (A * B * (A * B)) with ((A * A) * (B * B)) by ring. apply Rmult_le_compat; [nra|nra|exact HA|exact HB]. }
  nra.
Qed.

(** ** How far a place moves with its latitude, longitude and altitude *)
Lemma move_altitude lat lon h h' : distance (geodetic_lla_to_ecef lat lon h) (geodetic_lla_to_ecef lat lon h') <= Rabs (h - h').
Proof.
  rewrite !to_ecef_meridian, dist_meridian. unfold at_w, at_z. rewrite <- sqrt_Rsqr_abs. apply sqrt_le_1_alt. right. unfold Rsqr. pose proof (sin_cos_1 lat) as SC.
  transitivity ((h - h') * (h - h') * (sin lat * sin lat + cos lat * cos lat)); [ring|rewrite SC; ring].
Qed.
Lemma move_longitude lat lon lon' h : distance (geodetic_lla_to_ecef lat lon h) (geodetic_lla_to_ecef lat lon' h) <= Rabs (at_w h lat) * Rabs (lon - lon').
Proof.
  rewrite !to_ecef_meridian. apply dist_sq; [apply Rmult_le_pos; apply Rabs_pos|]. set (W := at_w h lat).
  assert (A : forall x, Rabs x * Rabs x = x * x) by (intros x; rewrite <- Rabs_mult; apply Rabs_pos_eq; apply Rle_0_sqr).
  replace (Rabs W * Rabs (lon - lon') * (Rabs W * Rabs (lon - lon'))) with ((W * W) * ((lon - lon') * (lon - lon'))) by (rewrite <- (A W), <- (A (lon - lon')); ring).
  assert (E : (W * cos lon - W * cos lon') * (W * cos lon - W * cos lon') + (W * sin lon - W * sin lon') * (W * sin lon - W * sin lon') + (at_z h lat - at_z h lat) * (at_z h lat - at_z h lat)
    = (W * W) * (4 * (sin ((lon - lon') / 2) * sin ((lon - lon') / 2)))).
  { pose proof (sin_cos_1 lon) as S1. pose proof (sin_cos_1 lon') as S2. pose proof (cos_minus lon lon') as CD.
    replace (lon - lon') with (2 * ((lon - lon') / 2)) in CD at 1 by field. rewrite cos_2a_sin in CD.
    replace ((W * cos lon - W * cos lon') * (W * cos lon - W * cos lon') + (W * sin lon - W * sin lon') * (W * sin lon - W * sin lon') + (at_z h lat - at_z h lat) * (at_z h lat - at_z h lat))
      with (W * W * ((sin lon * sin lon + cos lon * cos lon) + (sin lon' * sin lon' + cos lon' * cos lon') - 2 * (cos lon * cos lon' + sin lon * sin lon'))) by ring.
    rewrite S1, S2, <- CD. ring. }
  rewrite E. apply Rmult_le_compat_l; [apply Rle_0_sqr|]. set (x := (lon - lon') / 2). replace (lon - lon') with (2 * x) by (unfold x; field).
  pose proof (sin_small x) as S. pose proof (Rabs_pos (sin x)). rewrite <- (A (sin x)). assert (Rabs (sin x) * Rabs (sin x) <= Rabs x * Rabs x) by (apply Rmult_le_compat; lra). rewrite (A x) in *. lra.
Qed.
Lemma move_latitude lat lat' lon h : -100000 <= h <= 100000 -> distance (geodetic_lla_to_ecef lat lon h) (geodetic_lla_to_ecef lat' lon h) <= 6503000 * Rabs (lat - lat').
Proof.
  intros H. rewrite !to_ecef_meridian, dist_meridian. set (dw := at_w h lat - at_w h lat'). set (dz := at_z h lat - at_z h lat'). set (N := sqrt (dw * dw + dz * dz)).
  assert (NN : N * N = dw * dw + dz * dz) by (apply sqrt_sqrt; nra). assert (N0 : 0 <= N) by apply sqrt_pos.
  destruct (mvt0 (fun x => at_w h (lat' + x) * dw + at_z h (lat' + x) * dz) (fun x => (M (lat' + x) + h) * (cos (lat' + x) * dz - sin (lat' + x) * dw)) (lat - lat')) as (c & E & _).
  { intros c. eapply D_eq; [apply D_plus; [apply (D_scal_r (fun x => at_w h (lat' + x))); apply D_shift; apply D_at_w|apply (D_scal_r (fun x => at_z h (lat' + x))); apply D_shift; apply D_at_z]|]. ring. }
  cbv beta in E. replace (lat' + (lat - lat')) with lat in E by ring. replace (lat' + 0) with lat' in E by ring. set (t := lat' + c) in *.
  assert (E' : N * N = (M t + h) * (cos t * dz - sin t * dw) * (lat - lat')) by (rewrite <- E, NN; unfold dw, dz; ring).
  assert (P : Rabs (cos t * dz - sin t * dw) <= N).
  { apply Rsqr_incr_0_var; [|exact N0]. unfold Rsqr. rewrite <- Rabs_mult, Rabs_pos_eq by apply Rle_0_sqr. rewrite NN. pose proof (sin_cos_1 t) as SC.
    apply Rle_trans with ((dw * dw + dz * dz) * (sin t * sin t + cos t * cos t)); [|rewrite SC; lra].
    apply Rminus_le_0. replace (_ - _) with ((cos t * dw + sin t * dz) * (cos t * dw + sin t * dz)) by ring. apply Rle_0_sqr. }
  pose proof (M_bounds t) as MB.
  assert (Q : N * N <= 6503000 * N * Rabs (lat - lat')).
  { rewrite E'. eapply Rle_trans; [apply Rle_abs|]. rewrite !Rabs_mult. apply Rmult_le_compat_r; [apply Rabs_pos|]. rewrite (Rabs_pos_eq (M t + h)) by lra. apply Rmult_le_compat; [lra|apply Rabs_pos|lra|exact P]. }
  destruct (Rle_lt_or_eq_dec 0 N N0) as [L|L].
  - apply Rmult_le_reg_l with N; [exact L|]. lra.
  - rewrite <- L. apply Rmult_le_pos; [lra|apply Rabs_pos].
Qed.
Lemma at_w_small h t : -100000 <= h <= 100000 -> Rabs (at_w h t) <= 6500000.
Proof.
  intros H. unfold at_w, foot_w. replace (semi_major_axis * (cos t * K t) + h * cos t) with ((semi_major_axis * K t + h) * cos t) by ring. rewrite Rabs_mult.
  pose proof (K_bounds t). pose proof (Rabs_cos_le t). pose proof (Rabs_pos (cos t)). assert (6200000 <= semi_major_axis * K t + h <= 6500000) by (unfold semi_major_axis; lra). rewrite (Rabs_pos_eq (semi_major_axis * K t + h)) by lra.
  set (n := semi_major_axis * K t + h) in *. nra.
Qed.
Lemma moves lat lon h lat' lon' h' : -100000 <= h <= 100000 -> -100000 <= h' <= 100000 ->
  distance (geodetic_lla_to_ecef lat lon h) (geodetic_lla_to_ecef lat' lon' h') <= 6503000 * Rabs (lat - lat') + 6500000 * Rabs (lon - lon') + Rabs (h - h').
Proof.
  intros H H'. eapply Rle_trans; [apply (dist_triangle _ (geodetic_lla_to_ecef lat' lon h))|]. eapply Rle_trans; [apply Rplus_le_compat_l; apply (dist_triangle _ (geodetic_lla_to_ecef lat' lon' h))|].
  pose proof (move_latitude lat lat' lon h H). pose proof (move_longitude lat' lon lon' h). pose proof (move_altitude lat' lon' h h'). pose proof (at_w_small h lat' H).
  assert (Rabs (at_w h lat') * Rabs (lon - lon') <= 6500000 * Rabs (lon - lon')) by (apply Rmult_le_compat_r; [apply Rabs_pos|assumption]). lra.
Qed.
(** the altitude of a place near the surface *)
Lemma altitude_range lat lon h r : - 600000 <= h -> 6319000 <= r <= 6431000 -> Rabs (distance earth_centre (geodetic_lla_to_ecef lat lon h) - r) <= 1 -> -82000 <= h <= 76000.
Proof.
  intros Hh Hr HD. rewrite to_ecef_meridian in HD. set (D := distance _ _) in HD.
  assert (DD : D * D = at_w h lat * at_w h lat + at_z h lat * at_z h lat).
  { unfold D, distance, earth_centre. pose proof (sin_cos_1 lon) as SC.
    replace ((0 - at_w h lat * cos lon) * (0 - at_w h lat * cos lon) + (0 - at_w h lat * sin lon) * (0 - at_w h lat * sin lon) + (0 - at_z h lat) * (0 - at_z h lat))
      with (at_w h lat * at_w h lat * (sin lon * sin lon + cos lon * cos lon) + at_z h lat * at_z h lat) by ring. rewrite SC, sqrt_sqrt; [ring|].
    pose proof (Rle_0_sqr (at_w h lat)). pose proof (Rle_0_sqr (at_z h lat)). unfold Rsqr in *. lra. }
  assert (D0 : 0 <= D) by apply sqrt_pos. apply Rabs_def2b in HD. clearbody D.
  pose proof (K_bounds lat) as KB. pose proof (sin_cos_1 lat) as SC. pose proof (K_sq lat) as KQ. pose proof (G_bounds lat) as GB. fold B2 in GB. pose proof B2_val as BV.
  split.
  - (* D <= a K + h *)
    apply Rnot_lt_le. intros C.
    assert (L : D * D <= (semi_major_axis * K lat + h) * (semi_major_axis * K lat + h)).
    { rewrite DD. unfold at_w, at_z, foot_w, foot_z. fold B2.
      replace ((semi_major_axis * (cos lat * K lat) + h * cos lat) * (semi_major_axis * (cos lat * K lat) + h * cos lat)) with ((semi_major_axis * K lat + h) * (semi_major_axis * K lat + h) * (cos lat * cos lat)) by ring.
      replace ((semi_major_axis * B2 * (sin lat * K lat) + h * sin lat) * (semi_major_axis * B2 * (sin lat * K lat) + h * sin lat)) with ((semi_major_axis * B2 * K lat + h) * (semi_major_axis * B2 * K lat + h) * (sin lat * sin lat)) by ring.
      assert (I : (semi_major_axis * B2 * K lat + h) * (semi_major_axis * B2 * K lat + h) <= (semi_major_axis * K lat + h) * (semi_major_axis * K lat + h)).
      { assert (0 <= semi_major_axis * B2 * K lat + h <= semi_major_axis * K lat + h).
        { unfold semi_major_axis. assert (6300000 <= 6378137 * B2 <= 6378137) by lra. set (q := 6378137 * B2) in *. nra. }
        apply Rmult_le_compat; lra. }
      pose proof (Rmult_le_compat_r (sin lat * sin lat) _ _ (Rle_0_sqr (sin lat)) I) as I2. set (q1 := (semi_major_axis * K lat + h) * (semi_major_axis * K lat + h)) in *.
      replace q1 with (q1 * (sin lat * sin lat + cos lat * cos lat)) at 2 by (rewrite SC; ring). lra. }
    assert (0 <= semi_major_axis * K lat + h <= 6317900) by (unfold semi_major_axis; lra).
    assert (D <= semi_major_axis * K lat + h) by (apply Rsqr_incr_0_var; [exact L|lra]). lra.
  - (* b + h <= D *)
    pose proof (proj_le (at_w h lat) (at_z h lat) (cos lat) (sin lat) D D0 ltac:(lra) SC) as P.
    replace (at_w h lat * cos lat + at_z h lat * sin lat) with (semi_major_axis * (K lat * G lat) + h) in P.
    2:{ rewrite G_alt. unfold at_w, at_z, foot_w, foot_z. fold B2. transitivity (semi_major_axis * (K lat * (cos lat * cos lat + B2 * (sin lat * sin lat))) + h * (sin lat * sin lat + cos lat * cos lat)); [rewrite SC; ring|ring]. }
    assert (g : 0.9966 <= K lat * G lat). { assert (K lat * (K lat * G lat) = 1) by lra. apply Rnot_lt_le. intros X. nra. }
    assert (semi_major_axis * 0.9966 <= semi_major_axis * (K lat * G lat)) by (apply Rmult_le_compat_l; [unfold semi_major_axis; lra|exact g]). unfold semi_major_axis in *. lra.
Qed.

Lemma surface_lla l : around_the_surface l ->
  let '(LA, LO, AL) := ecef_to_geodetic_lla (f64_value (loc_x l)) (f64_value (loc_y l)) (f64_value (loc_z l)) in
  (- (PI / 2) <= LA <= PI / 2 /\ - PI < LO <= PI) /\ distance (geodetic_lla_to_ecef LA LO AL) (place l) <= 0.002 /\ -82000 <= AL <= 76000.
Proof.
  intros AR.
  pose proof (geodesy_there_and_back_pf (f64_value (loc_x l)) (f64_value (loc_y l)) (f64_value (loc_z l))) as TB. unfold around_the_surface in AR. unfold place in *. specialize (TB ltac:(lra)).
  pose proof (to_lla_meridian (f64_value (loc_x l)) (f64_value (loc_y l)) (f64_value (loc_z l))) as TM.
  set (x := f64_value (loc_x l)) in *. set (y := f64_value (loc_y l)) in *. set (z := f64_value (loc_z l)) in *.
  assert (H2 : 6000000 * 6000000 <= x * x + y * y + z * z).
  { destruct AR as [AR _]. unfold distance, earth_centre in AR. assert (Q : (0 - x) * (0 - x) + (0 - y) * (0 - y) + (0 - z) * (0 - z) = x * x + y * y + z * z) by ring. rewrite Q in AR.
    assert (Q0 : 0 <= x * x + y * y + z * z) by (pose proof (Rle_0_sqr x); pose proof (Rle_0_sqr y); pose proof (Rle_0_sqr z); unfold Rsqr in *; lra).
    rewrite <- (sqrt_sqrt _ Q0). apply Rmult_le_compat; lra. }
  specialize (TM H2). cbv zeta in TM.
  assert (HL : forall a b c, ecef_to_geodetic_lla x y z = (a, b, c) -> - 600000 <= c).
  { intros a b c E. rewrite TM in E. set (w := sqrt (x * x + y * y)) in *.
    assert (W : w * w = x * x + y * y) by (apply sqrt_sqrt; pose proof (Rle_0_sqr x); pose proof (Rle_0_sqr y); unfold Rsqr in *; lra).
    assert (ZZ : Rabs z * Rabs z = z * z) by (rewrite <- Rabs_mult; apply Rabs_pos_eq; apply Rle_0_sqr).
    pose proof (meridian_close w (Rabs z) (sqrt_pos _) (Rabs_pos _) ltac:(rewrite W, ZZ; exact H2)) as Q. destruct (estimate w (Rabs z)) as [[t s] c0]. destruct (refine w (Rabs z) s c0) as [p h].
    destruct Q as (_ & _ & Q). injection E as _ _ <-. lra. }
  destruct (ecef_to_geodetic_lla x y z) as [[LA LO] AL]. specialize (HL LA LO AL eq_refl). clear TM. destruct TB as (TA & TB). split; [exact TA|]. split; [exact TB|].
  apply (altitude_range LA LO AL (distance earth_centre (x, y, z))); [lra|lra|].
  pose proof (dist_triangle earth_centre (geodetic_lla_to_ecef LA LO AL) (x, y, z)) as T1. pose proof (dist_triangle earth_centre (x, y, z) (geodetic_lla_to_ecef LA LO AL)) as T2.
  rewrite (dist_sym (x, y, z)) in T2. apply Rabs_le. lra.
Qed.
Lemma place_moves g l l' : computes g -> numbers l -> around_the_surface l -> place_kept g l l' -> distance (place l') (place l) <= 10.
Proof.
  intros [CL CE] NL AR PK. specialize (CL l NL AR). pose proof (surface_lla l AR) as SL.
  destruct (to_lla g (loc_x l) (loc_y l) (loc_z l)) as [[lat lon] alt] eqn:EL.
  unfold around_the_surface, place in AR, SL |- *.
  set (x := f64_value (loc_x l)) in *. set (y := f64_value (loc_y l)) in *. set (z := f64_value (loc_z l)) in *.
  destruct (ecef_to_geodetic_lla x y z) as [[LA LO] AL]. destruct SL as ((RL & RO) & TB & AB).
  destruct CL as (F1 & F2 & F3 & W1 & W2 & W3).
  pose proof PI_upper as PU. pose proof PI_RGT_0 as PP. unfold within in *. apply Rabs_def2b in W1 as W1'. apply Rabs_def2b in W2 as W2'. apply Rabs_def2b in W3 as W3'.
  destruct NL as (N1 & N2 & N3).
  destruct (PK lat lon alt EL) as (lat' & lon' & alt' & EC & G1 & G2 & G3 & K1 & K2 & K3); try assumption; try lra.
  { intros (Z1 & Z2 & Z3). fold x y z in Z1, Z2, Z3. rewrite Z1, Z2, Z3 in AR. unfold distance, earth_centre in AR. replace ((0 - 0) * (0 - 0) + (0 - 0) * (0 - 0) + (0 - 0) * (0 - 0)) with 0 in AR by ring. rewrite sqrt_0 in AR. lra. }
  destruct (Rle_dec (f64_value alt) 83886) as [_|C]; [|lra]. unfold within in *.
  assert (B1 : Rabs (f64_value lat) <= 1.5716) by (apply Rabs_le; lra). assert (B2' : Rabs (f64_value lon) <= 3.1431) by (apply Rabs_le; lra).
  assert (K1' : Rabs (f64_value lat' - f64_value lat) <= 0.0000004716) by lra. assert (K2' : Rabs (f64_value lon' - f64_value lon) <= 0.000000943) by lra.
  apply Rabs_def2b in K1'. apply Rabs_def2b in K2'. apply Rabs_def2b in K3.
  specialize (CE lat' lon' alt' G1 G2 G3 ltac:(lra) ltac:(lra) ltac:(lra)). rewrite EC in CE.
  pose proof (moves (f64_value lat') (f64_value lon') (f64_value alt') LA LO AL ltac:(lra) ltac:(lra)) as MV.
  assert (D1 : Rabs (f64_value lat' - LA) <= 0.0000004727) by (apply Rabs_le; lra). assert (D2 : Rabs (f64_value lon' - LO) <= 0.0000009441) by (apply Rabs_le; lra).
  assert (D3 : Rabs (f64_value alt' - AL) <= 0.02) by (apply Rabs_le; lra).
  unfold place in CE. cbn [loc_x loc_y loc_z] in CE.
  pose proof (dist_triangle (f64_value (loc_x l'), f64_value (loc_y l'), f64_value (loc_z l')) (geodetic_lla_to_ecef (f64_value lat') (f64_value lon') (f64_value alt')) (x, y, z)) as T1.
  pose proof (dist_triangle (geodetic_lla_to_ecef (f64_value lat') (f64_value lon') (f64_value alt')) (geodetic_lla_to_ecef LA LO AL) (x, y, z)) as T2. fold x y z. lra.
Qed.

(*@C57 Through the C-DIS encoder and decoder, when the double-precision conversions compute the functions above to a millimetre and a billionth of a radian, a place near the surface (every place from 36 km below to 51 km above it) arrives within 10 metres of where it was: in Fire and Detonation PDUs, and in full updates of Entity State, Designator and Transmitter PDUs. *)
Lemma cdis_place_in_metres_pf : forall m g oe od p c p' l, computes g -> translated m g oe od p c p' -> wf_body (pdu_body p) ->
  full_update (cp_body c) \/ (exists x, pdu_body p = BFire x) \/ (exists x, pdu_body p = BDetonation x) ->
  reported (pdu_body p) = Some l -> numbers l -> around_the_surface l ->
  exists l', reported (pdu_body p') = Some l' /\ (distance (place l') (place l) <= 10)%R.
Proof.
  intros m g oe od p c p' l CG T WF FU RE NL AR. destruct (pdu_body p) as [] eqn:EB; try discriminate RE; cbn [reported] in RE; injection RE as <-.
  - destruct FU as [FU|[[? X]|[? X]]]; try discriminate X. destruct (cdis_entity_state_identity_pf m g oe od p c p' _ T EB FU) as (y & EY & _ & _ & PK & _). exists (EntityState_location y). rewrite EY. split; [reflexivity|]. exact (place_moves g _ _ CG NL AR PK).
  - destruct (cdis_fire_content_pf m g oe od p c p' _ T EB) as (y & EY & _ & _ & _ & _ & _ & PK & _). { cbn in WF. unfold wf_Fire in WF. tauto. } exists (Fire_location_in_world y). rewrite EY. split; [reflexivity|]. exact (place_moves g _ _ CG NL AR PK).
  - destruct (cdis_detonation_content_pf m g oe od p c p' _ T EB) as (y & EY & _ & _ & _ & _ & _ & PK & _). { cbn in WF. unfold wf_Detonation in WF. tauto. } exists (Detonation_world_location y). rewrite EY. split; [reflexivity|]. exact (place_moves g _ _ CG NL AR PK).
  - destruct FU as [FU|[[? X]|[? X]]]; try discriminate X. destruct (cdis_designator_laser_pf m g oe od p c p' _ T EB FU) as (y & EY & _ & _ & _ & _ & PK). exists (Designator_spot_location y). rewrite EY. split; [reflexivity|]. exact (place_moves g _ _ CG NL AR PK).
  - destruct FU as [FU|[[? X]|[? X]]]; try discriminate X. destruct (cdis_transmitter_radio_pf m g oe od p c p' _ T EB FU) as (y & EY & _ & PK & _). exists (Transmitter_antenna_location y). rewrite EY. split; [reflexivity|]. exact (place_moves g _ _ CG NL AR PK).
Qed.

(** ** Double-precision conversions as precise as that exist *)
Definition step : spec_float := dfdiv (df_of_int 1) (df_of_int (2 ^ 30)).
Lemma step_ok : ok53 step /\ val step = / 1073741824. Proof. scale53. Qed.
Definition nearly (v : R) : Z := bits_of_df (dfmul (df_of_int (Rdefinitions.up (v * 1073741824))) step).
Lemma nearly_near v : Rabs v <= 8000000 -> f64_finite (nearly v) /\ Rabs (f64_value (nearly v) - v) <= 0.00001 /\ (Rabs v <= 4 -> Rabs (f64_value (nearly v) - v) <= 0.000000001).
Proof.
  intros H. unfold nearly. set (n := Rdefinitions.up (v * 1073741824)). destruct (archimed (v * 1073741824)) as [U1 U2]. fold n in U1, U2. apply Rabs_def2b in H as HV.
  assert (NB : (Z.abs n < 2 ^ 53)%Z). { apply lt_IZR. rewrite abs_IZR. change (2 ^ 53)%Z with 9007199254740992%Z. apply Rabs_def1; lra. }
  destruct (int_exact53 n NB) as [O V]. destruct step_ok as [SO SV].
  assert (PR : Rabs (IZR n * / 1073741824) <= 8000001) by (apply Rabs_le; lra).
  destruct (mul53_fine (df_of_int n) step O SO) as [MO MV]; [rewrite V, SV; unfold huge; lra|]. rewrite V, SV in MV. destruct (bits53_of_fin _ MO) as [BF BV]. split; [exact BF|]. rewrite BV. unfold tiny in MV.
  set (q := val (dfmul (df_of_int n) step)) in *.
  assert (E : 0 <= IZR n * / 1073741824 - v <= 0.00000000094) by lra. pose proof (Rabs_pos (IZR n * / 1073741824)).
  split.
  - assert (M : Rabs (q - IZR n * / 1073741824) <= 0.0000081) by lra. apply Rabs_def2b in M. apply Rabs_le. lra.
  - intros H4. apply Rabs_def2b in H4. assert (P4 : Rabs (IZR n * / 1073741824) <= 5) by (apply Rabs_le; lra). assert (M : Rabs (q - IZR n * / 1073741824) <= 0.00000000001) by lra. apply Rabs_def2b in M. apply Rabs_le. lra.
Qed.
Definition precise : Geo := MkGeo
  (fun x y z => let '(a, b, c) := ecef_to_geodetic_lla (f64_value x) (f64_value y) (f64_value z) in (nearly a, nearly b, nearly c))
  (fun a b c => let '(x, y, z) := geodetic_lla_to_ecef (f64_value a) (f64_value b) (f64_value c) in (nearly x, nearly y, nearly z)).
Lemma computes_precise : computes precise /\ let l := MkLocation 4708606483430899712 0 0 in numbers l /\ around_the_surface l.
Proof.
  split; [split|].
  - intros l NL AR. pose proof (surface_lla l AR) as SL. cbn [to_lla precise].
    destruct (ecef_to_geodetic_lla (f64_value (loc_x l)) (f64_value (loc_y l)) (f64_value (loc_z l))) as [[LA LO] AL]. destruct SL as ((R1 & R2) & _ & R3).
    pose proof PI_upper. pose proof PI_RGT_0.
    destruct (nearly_near LA ltac:(apply Rabs_le; lra)) as (A1' & _ & A3'). destruct (nearly_near LO ltac:(apply Rabs_le; lra)) as (B1' & _ & B3'). destruct (nearly_near AL ltac:(apply Rabs_le; lra)) as (C1' & C2' & _).
    unfold within. split; [exact A1'|]. split; [exact B1'|]. split; [exact C1'|]. split; [apply A3'; apply Rabs_le; lra|]. split; [apply B3'; apply Rabs_le; lra|lra].
  - intros lat lon alt _ _ _ _ _ R3. cbn [to_ecef precise]. rewrite to_ecef_meridian.
    assert (W : Rabs (at_w (f64_value alt) (f64_value lat)) <= 6500000) by (apply at_w_small; lra).
    assert (Z : Rabs (at_z (f64_value alt) (f64_value lat)) <= 6500000).
    { unfold at_z, foot_z. fold B2. set (t := f64_value lat). replace (semi_major_axis * B2 * (sin t * K t) + f64_value alt * sin t) with ((semi_major_axis * B2 * K t + f64_value alt) * sin t) by ring. rewrite Rabs_mult.
      pose proof (K_bounds t). pose proof B2_val. pose proof (Rabs_sin_le t). pose proof (Rabs_pos (sin t)). assert (Q : 6300000 <= 6378137 * B2 <= 6378137) by lra.
      assert (0 <= semi_major_axis * B2 * K t + f64_value alt <= 6500000) by (unfold semi_major_axis; set (q := 6378137 * B2) in *; nra). rewrite (Rabs_pos_eq (semi_major_axis * B2 * K t + f64_value alt)) by lra.
      set (n := semi_major_axis * B2 * K t + f64_value alt) in *. nra. }
    set (w := at_w _ _) in *. set (z := at_z _ _) in *.
    assert (X : Rabs (w * cos (f64_value lon)) <= 8000000). { rewrite Rabs_mult. pose proof (Rabs_cos_le (f64_value lon)). pose proof (Rabs_pos w). pose proof (Rabs_pos (cos (f64_value lon))). nra. }
    assert (Y : Rabs (w * sin (f64_value lon)) <= 8000000). { rewrite Rabs_mult. pose proof (Rabs_sin_le (f64_value lon)). pose proof (Rabs_pos w). pose proof (Rabs_pos (sin (f64_value lon))). nra. }
    destruct (nearly_near _ X) as (_ & X' & _). destruct (nearly_near _ Y) as (_ & Y' & _). destruct (nearly_near z ltac:(lra)) as (_ & Z' & _).
    apply dist_sq; [lra|]. unfold place. cbn [loc_x loc_y loc_z]. apply Rabs_def2b in X'. apply Rabs_def2b in Y'. apply Rabs_def2b in Z'.
    assert (S : forall v, - (0.00001) <= v <= 0.00001 -> v * v <= 0.00001 * 0.00001) by (intros v; clear; nra). pose proof (S _ X'). pose proof (S _ Y'). pose proof (S _ Z'). lra.
  - cbv zeta. assert (V : f64_value 4708606483430899712 = 6378137).
    { unfold f64_value. change (2 ^ 63 <=? 4708606483430899712)%Z with false. change (f64_exponent 4708606483430899712) with 1045%Z. change (f64_fraction 4708606483430899712) with 2344872828731392%Z. change (1045 =? 0)%Z with false. cbv iota.
      change (1045 - 1075)%Z with (-30)%Z. change (2 ^ 52 + 2344872828731392)%Z with 6848472456101888%Z. unfold powerRZ. change (Pos.to_nat 30) with 30%nat.
      assert (P30 : 2 ^ 30 = 1073741824) by (cbn [pow]; lra). rewrite P30. lra. }
    assert (V0 : f64_value 0 = 0) by (unfold f64_value; change (f64_exponent 0 =? 0)%Z with true; change (f64_fraction 0) with 0%Z; cbv iota; rewrite Rmult_0_l; apply Rmult_0_r).
    split.
    + unfold numbers, f64_finite. cbn [loc_x loc_y loc_z]. change (f64_exponent 4708606483430899712) with 1045%Z. change (f64_exponent 0) with 0%Z. lia.
    + unfold around_the_surface, place. cbn [loc_x loc_y loc_z]. rewrite V, V0. unfold distance, earth_centre.
      replace ((0 - 6378137) * (0 - 6378137) + (0 - 0) * (0 - 0) + (0 - 0) * (0 - 0)) with (6378137 * 6378137) by ring. rewrite sqrt_square by lra. lra.
Qed.
(*@ex*)
(** There are double-precision conversions that meet the assumption, and the place 6,378,137 metres out on the first axis meets the others. *)
Example computes_example : computes precise /\ let l := MkLocation 4708606483430899712 0 0 in numbers l /\ around_the_surface l.
Proof. exact computes_precise. Qed.

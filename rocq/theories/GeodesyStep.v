(** * Geodesy in real numbers: the whole method in one meridian plane (lemmas) *)
From Coq Require Import Reals Lra Psatz.
From Verif Require Import Geodesy GeodesyLemmas GeodesyEst.
Open Scope R_scope.

(** what the code does from the first estimate on (utils.rs:46-57) *)
Definition refine (w zp s c : R) : R * R :=
  let g := 1 - E2 * (s * s) in
  let rg := semi_major_axis / sqrt g in
  let rf := A6 * rg in
  let u := w - rg * c in
  let v := zp - rf * s in
  let f := c * u + s * v in
  let m := c * v - s * u in
  let p := m / (rf / g + f) in
  (p, f + m * p / 2).
Lemma mul_range a b x y : 0 <= a <= x -> 0 <= b <= y -> 0 <= a * b <= x * y.
Proof. intros. split; [apply Rmult_le_pos|apply Rmult_le_compat]; lra. Qed.
Lemma A6_E2 : Rabs (A6 - (1 - E2)) <= 0.000000000000001. Proof. apply Rabs_le. unfold A6, E2. lra. Qed.
Lemma refine_close r w zp t s c :
  6000000 <= r -> 0 <= w -> 0 <= zp -> w * w + zp * zp = r * r -> sin t = s -> cos t = c -> 0 <= t <= PI / 2 -> zp / r <= s -> 0.5 * (w / r) <= c ->
  Rabs (r * (c * (zp / r) - s * (w / r)) + (1 - A6) * semi_major_axis * (K t * (s * c))) <= 1300 * (w / r * (zp / r)) -> 0.98 <= c * (w / r) + s * (zp / r) ->
  let (p, h) := refine w zp s c in
  0 <= t + p <= PI / 2 /\ (at_w h (t + p) - w) * (at_w h (t + p) - w) + (at_z h (t + p) - zp) * (at_z h (t + p) - zp) <= 0.002 * 0.002 /\ - 521000 <= h.
Proof.
  intros Hr Hw Hz HU Es Ec Ht Hs Hc Hm HD. unfold refine. cbv zeta.
  set (g := 1 - E2 * (s * s)). assert (Eg : g = G t) by (unfold g, G; rewrite Es; ring).
  rewrite Eg. pose proof (K_bounds t) as KB. pose proof (K_sq t) as KQ. pose proof (G_pos t) as GP. pose proof (G_bounds t) as GB.
  replace (semi_major_axis / sqrt (G t)) with (semi_major_axis * K t) by (unfold K; reflexivity).
  pose proof (sin_cos_1 t) as SC. rewrite Es, Ec in SC.
  set (C := w / r) in *. set (S := zp / r) in *.
  assert (rp : 0 < r) by lra. assert (Ew : w = r * C) by (unfold C; field; lra). assert (Ez : zp = r * S) by (unfold S; field; lra).
  assert (C0 : 0 <= C) by (unfold C, Rdiv; apply Rmult_le_pos; [lra|left; now apply Rinv_0_lt_compat]).
  assert (S0 : 0 <= S) by (unfold S, Rdiv; apply Rmult_le_pos; [lra|left; now apply Rinv_0_lt_compat]).
  assert (CS1 : C * C + S * S = 1).
  { assert (Q : r * r * (C * C + S * S) = r * r * 1) by (rewrite Ew, Ez in HU; lra). apply Rmult_eq_reg_l in Q; [exact Q|]. apply Rgt_not_eq. nra. }
  clearbody C S. pose proof (CS_half C S CS1 C0 S0) as CSh.
  set (k := K t) in *.
  set (m := c * (zp - A6 * (semi_major_axis * k) * s) - s * (w - semi_major_axis * k * c)).
  assert (Em : m = r * (c * S - s * C) + (1 - A6) * semi_major_axis * (k * (s * c))) by (unfold m; rewrite Ew, Ez; ring).
  set (f := c * (w - semi_major_axis * k * c) + s * (zp - A6 * (semi_major_axis * k) * s)).
  assert (Ef : f = r * (c * C + s * S) - semi_major_axis * (k * (c * c + A6 * (s * s)))) by (unfold f; rewrite Ew, Ez; ring).
  rewrite <- Em in Hm. clearbody m.
  assert (A6v : 0.9933 <= A6 <= 0.9934) by (unfold A6; lra).
  assert (ss : 0 <= s * s <= 1) by nra. assert (cc : 0 <= c * c <= 1) by nra.
  assert (F1 : k * (c * c + A6 * (s * s)) <= 1.0034). { assert (0 <= c * c + A6 * (s * s) <= 1) by nra. nra. }
  assert (F0 : 0 <= k * (c * c + A6 * (s * s))). { apply Rmult_le_pos; [lra|nra]. }
  assert (Av : semi_major_axis = 6378137) by reflexivity.
  assert (Flo : 0.98 * r - 1.0034 * semi_major_axis <= f). { rewrite Ef. nra. }
  assert (Gi : A6 * (semi_major_axis * k) / G t = A6 * semi_major_axis * (k * k * k)).
  { replace (A6 * (semi_major_axis * k) / G t) with (A6 * (semi_major_axis * k) * (k * k * G t) / G t) by (rewrite KQ; field; lra). field. lra. }
  rewrite Gi. set (Mp := A6 * semi_major_axis * (k * k * k)).
  assert (Kc : 1 <= k * k <= 1.007) by (clear - KB; nra). assert (Kd : 1 <= k * k * k <= 1.0105) by (clear - KB Kc; nra).
  assert (Mlo : 0.9933 * semi_major_axis <= Mp). { unfold Mp. assert (0.9933 * semi_major_axis <= A6 * semi_major_axis) by (rewrite Av; nra). assert (0 < A6 * semi_major_axis) by (rewrite Av; nra). nra. }
  assert (Dlo : 5800000 <= Mp + f) by (rewrite Av in *; lra).
  set (p := m / (Mp + f)). assert (Ep : p * (Mp + f) = m) by (unfold p; field; lra).
  assert (Pb : Rabs p * 5800000 <= 1300 * (C * S)).
  { eapply Rle_trans; [|exact Hm]. rewrite <- Ep, Rabs_mult. rewrite (Rabs_pos_eq (Mp + f)) by lra. apply Rmult_le_compat_l; [apply Rabs_pos|exact Dlo]. }
  pose proof (Rabs_pos p) as Pp.
  assert (C1 : C <= 1) by (clear - CS1 C0; nra). assert (S1 : S <= 1) by (clear - CS1 S0; nra).
  assert (P1 : Rabs p <= 0.00012) by lra.
  assert (P2 : Rabs p <= s). { assert (C * S <= S) by (clear - C0 C1 S0; nra). lra. }
  assert (P3 : Rabs p <= c). { assert (C * S <= C) by (clear - C0 S1 S0; nra). lra. }
  assert (Pm : Rabs m <= 650) by lra.
  clearbody p.
  set (h := f + m * p / 2).
  assert (SE : Rabs ((at_z h (t + p) - zp) * cos t - (at_w h (t + p) - w) * sin t) <= 66000 * (p * p) + 0.0003 /\ Rabs ((at_w h (t + p) - w) * cos t + (at_z h (t + p) - zp) * sin t) <= 0.00001).
  { apply (step_error t f m p h Mp w zp 0.000001); [exact Ep|reflexivity|lra|lra| |lra| |].
    - unfold Mp, M. fold k. replace (A6 * semi_major_axis * (k * k * k) - semi_major_axis * (1 - E2) * (k * k * k)) with ((A6 - (1 - E2)) * (semi_major_axis * (k * k * k))) by ring.
      rewrite Rabs_mult. pose proof A6_E2. rewrite (Rabs_pos_eq (semi_major_axis * (k * k * k))) by (rewrite Av; lra). pose proof (Rabs_pos (A6 - (1 - E2))).
      assert (0 <= semi_major_axis * (k * k * k) <= 6500000) by (rewrite Av; lra).
      apply Rle_trans with (0.000000000000001 * 6500000); [apply Rmult_le_compat; lra|lra].
    - unfold f, foot_w, foot_z. rewrite Es, Ec. fold k.
      replace ((w - semi_major_axis * (c * k)) * c + (zp - semi_major_axis * (1 - E2) * (s * k)) * s - (c * (w - semi_major_axis * k * c) + s * (zp - A6 * (semi_major_axis * k) * s)))
        with ((A6 - (1 - E2)) * (semi_major_axis * k * (s * s))) by ring.
      rewrite Rabs_mult. pose proof A6_E2. assert (0 <= semi_major_axis * k * (s * s) <= 6500000). { rewrite Av. pose proof (mul_range k (s * s) 1.0034 1 ltac:(lra) ltac:(lra)). lra. }
      rewrite (Rabs_pos_eq (semi_major_axis * k * (s * s))) by lra. pose proof (Rabs_pos (A6 - (1 - E2))).
      apply Rle_trans with (0.000000000000001 * 6500000); [apply Rmult_le_compat; lra|lra].
    - rewrite Em, Ew, Ez. unfold foot_w, foot_z. rewrite Es, Ec. fold k.
      replace ((r * S - semi_major_axis * (1 - E2) * (s * k)) * c - (r * C - semi_major_axis * (c * k)) * s - (r * (c * S - s * C) + (1 - A6) * semi_major_axis * (k * (s * c))))
        with ((A6 - (1 - E2)) * (semi_major_axis * k * (s * c))) by ring.
      assert (c0 : 0 <= c) by (rewrite <- Ec; apply cos_ge_0; lra). assert (s0 : 0 <= s) by lra. assert (sc1 : 0 <= s * c <= 1) by (clear - s0 c0 SC; nra).
      rewrite Rabs_mult. pose proof A6_E2. assert (0 <= semi_major_axis * k * (s * c) <= 6500000). { rewrite Av. pose proof (mul_range k (s * c) 1.0034 1 ltac:(lra) ltac:(lra)). lra. }
      rewrite (Rabs_pos_eq (semi_major_axis * k * (s * c))) by lra. pose proof (Rabs_pos (A6 - (1 - E2))).
      apply Rle_trans with (0.000000000000001 * 6500000); [apply Rmult_le_compat; lra|lra]. }
  rewrite Es, Ec in SE. destruct SE as [T1 T2].
  assert (PP : 0 <= p * p <= 0.0000000144). { rewrite <- (Rabs_pos_eq (p * p)) by (clear; nra). rewrite Rabs_mult. pose proof (mul_range (Rabs p) (Rabs p) 0.00012 0.00012 ltac:(lra) ltac:(lra)). lra. }
  split; [|split].
  - assert (Q1 : s <= t). { rewrite <- Es. pose proof (sin_small t) as Q. rewrite !Rabs_pos_eq in Q; lra. }
    assert (Q2 : c <= PI / 2 - t). { rewrite <- Ec, cos_sin. replace (PI / 2 + t) with (PI - (PI / 2 - t)) by field. rewrite sin_PI_x. pose proof (sin_small (PI / 2 - t)) as Q. rewrite (Rabs_pos_eq (PI / 2 - t)) in Q by lra. pose proof (Rle_abs (sin (PI / 2 - t))). lra. }
    apply Rabs_def2b in P2. apply Rabs_def2b in P3. lra.
  - set (dw := at_w h (t + p) - w) in *. set (dz := at_z h (t + p) - zp) in *.
    replace (dw * dw + dz * dz) with ((dz * c - dw * s) * (dz * c - dw * s) + (dw * c + dz * s) * (dw * c + dz * s)).
    2:{ replace (dw * dw + dz * dz) with ((dw * dw + dz * dz) * (s * s + c * c)) by (rewrite SC; ring). ring. }
    apply Rabs_def2b in T1. apply Rabs_def2b in T2.
    assert (U1 : -0.0013 <= dz * c - dw * s <= 0.0013) by lra. clear - U1 T2. nra.
  - unfold h. assert (Hmp : Rabs (m * p) <= 1). { rewrite Rabs_mult. pose proof (mul_range (Rabs m) (Rabs p) 650 0.00012 (conj (Rabs_pos m) Pm) (conj Pp P1)). lra. } apply Rabs_def2b in Hmp. rewrite Av in Flo. lra.
Qed.

Lemma cos_asin_s s : -1 <= s <= 1 -> cos (asin s) = sqrt (1 - s * s).
Proof. intros H. rewrite cos_asin by lra. reflexivity. Qed.
Lemma sin_acos_c c : -1 <= c <= 1 -> sin (acos c) = sqrt (1 - c * c).
Proof. intros H. rewrite sin_acos by lra. reflexivity. Qed.

(** the first estimate (utils.rs:32-45), from the two distances *)
Definition estimate (w zp : R) : R * R * R :=
  let r := sqrt (w * w + zp * zp) in
  let C := w / r in let S := zp / r in
  if Rlt_dec 0.3 (C * C) then
    let s := S * (1 + C * C * (A1 + A2 / r + S * S * (A3 - A4 / r)) / r) in (asin s, s, sqrt (1 - s * s))
  else let c := C * (1 - S * S * (A5 - A2 / r - C * C * (A3 - A4 / r)) / r) in (acos c, sqrt (1 - c * c), c).
Lemma meridian_close w zp : 0 <= w -> 0 <= zp -> 6000000 * 6000000 <= w * w + zp * zp ->
  let '(t, s, c) := estimate w zp in let (p, h) := refine w zp s c in
  0 <= t + p <= PI / 2 /\ (at_w h (t + p) - w) * (at_w h (t + p) - w) + (at_z h (t + p) - zp) * (at_z h (t + p) - zp) <= 0.002 * 0.002 /\ - 521000 <= h.
Proof.
  intros Hw Hz H. unfold estimate. set (r := sqrt (w * w + zp * zp)).
  assert (HU : w * w + zp * zp = r * r) by (unfold r; rewrite sqrt_sqrt by nra; reflexivity).
  assert (Hr : 6000000 <= r). { unfold r. rewrite <- (sqrt_square 6000000) by lra. apply sqrt_le_1_alt. exact H. }
  assert (Hr' : 0 < / r) by (apply Rinv_0_lt_compat; lra).
  set (C := w / r). set (S := zp / r).
  assert (C0 : 0 <= C) by (unfold C, Rdiv; apply Rmult_le_pos; lra).
  assert (S0 : 0 <= S) by (unfold S, Rdiv; apply Rmult_le_pos; lra).
  assert (CS1 : C * C + S * S = 1) by (unfold C, S; replace (w / r * (w / r) + zp / r * (zp / r)) with ((w * w + zp * zp) / (r * r)) by (field; lra); rewrite HU; field; lra).
  pose proof PI_RGT_0 as PIp.
  destruct (Rlt_dec 0.3 (C * C)) as [c2|c2].
  - cbv zeta. set (s := S * (1 + C * C * (A1 + A2 / r + S * S * (A3 - A4 / r)) / r)).
    pose proof (fun k => estimate_sin r C S k Hr C0 S0 CS1 c2) as Q. cbv zeta in Q. fold s in Q.
    destruct (Q (K (asin s)) (K_bounds _)) as (Q1 & Q2 & Q3 & Q4 & Q5).
    apply (refine_close r w zp (asin s) s (sqrt (1 - s * s))); try assumption.
    + apply sin_asin. lra.
    + apply cos_asin_s. lra.
    + destruct (asin_bound s) as [_ B]. split; [|exact B].
      apply Rnot_lt_le. intros Ng. pose proof (sin_lt_0_var (asin s)) as X. rewrite sin_asin in X by lra. destruct (asin_bound s) as [B1 _]. lra.
    + fold S. lra.
  - cbv zeta. set (c := C * (1 - S * S * (A5 - A2 / r - C * C * (A3 - A4 / r)) / r)).
    pose proof (fun k => estimate_cos r C S k Hr C0 S0 CS1 (Rnot_lt_le _ _ c2)) as Q. cbv zeta in Q. fold c in Q.
    destruct (Q (K (acos c)) (K_bounds _)) as (Q1 & Q2 & Q3 & Q4 & Q5).
    apply (refine_close r w zp (acos c) (sqrt (1 - c * c)) c); try assumption.
    + apply sin_acos_c. lra.
    + apply cos_acos. lra.
    + destruct (acos_bound c) as [B B2]. split; [exact B|].
      apply Rnot_lt_le. intros Ng. pose proof (cos_lt_0 (acos c)) as X. rewrite cos_acos in X by lra. lra.
    + fold C. lra.
Qed.

(** * Geodesy in real numbers: the meridian ellipse and one step of the method (lemmas) *)
From Coq Require Import Reals Lra Psatz.
From Verif Require Import Geodesy.
Open Scope R_scope.

(** ** Elementary *)
Lemma sin_cos_1 t : sin t * sin t + cos t * cos t = 1.
Proof. pose proof (sin2_cos2 t) as H. unfold Rsqr in H. lra. Qed.
Lemma Rabs_sin_le t : Rabs (sin t) <= 1. Proof. apply Rabs_le. pose proof (SIN_bound t). lra. Qed.
Lemma Rabs_cos_le t : Rabs (cos t) <= 1. Proof. apply Rabs_le. pose proof (COS_bound t). lra. Qed.
(** mean value theorem, from 0 to either side *)
Lemma mvt0 f f' p : (forall c, derivable_pt_lim f c (f' c)) -> exists c, f p - f 0 = f' c * p /\ Rabs c <= Rabs p.
Proof.
  intros D. destruct (Rtotal_order p 0) as [H|[->|H]].
  - destruct (MVT_cor2 f f' p 0 H (fun c _ => D c)) as (c & E & I). exists c. split; [lra|]. rewrite !Rabs_left1 by lra. lra.
  - exists 0. split; [lra|lra].
  - destruct (MVT_cor2 f f' 0 p H (fun c _ => D c)) as (c & E & I). exists c. split; [lra|]. rewrite !Rabs_pos_eq by lra. lra.
Qed.
Lemma mvt0_le f f' p k : (forall c, derivable_pt_lim f c (f' c)) -> (forall c, Rabs c <= Rabs p -> Rabs (f' c) <= k) -> Rabs (f p - f 0) <= k * Rabs p.
Proof. intros D K. destruct (mvt0 f f' p D) as (c & -> & I). rewrite Rabs_mult. apply Rmult_le_compat_r; [apply Rabs_pos|auto]. Qed.
Lemma D_id c : derivable_pt_lim (fun t => t) c 1. Proof. apply derivable_pt_lim_id. Qed.
Lemma D_const k c : derivable_pt_lim (fun _ => k) c 0. Proof. apply derivable_pt_lim_const. Qed.
Lemma D_plus f g c a b : derivable_pt_lim f c a -> derivable_pt_lim g c b -> derivable_pt_lim (fun t => f t + g t) c (a + b).
Proof. apply derivable_pt_lim_plus. Qed.
Lemma D_minus f g c a b : derivable_pt_lim f c a -> derivable_pt_lim g c b -> derivable_pt_lim (fun t => f t - g t) c (a - b).
Proof. apply derivable_pt_lim_minus. Qed.
Lemma D_mult f g c a b : derivable_pt_lim f c a -> derivable_pt_lim g c b -> derivable_pt_lim (fun t => f t * g t) c (a * g c + f c * b).
Proof. apply derivable_pt_lim_mult. Qed.
Lemma D_scal k f c a : derivable_pt_lim f c a -> derivable_pt_lim (fun t => k * f t) c (k * a).
Proof. apply derivable_pt_lim_scal. Qed.
Lemma D_eq f c a b : derivable_pt_lim f c a -> a = b -> derivable_pt_lim f c b. Proof. intros H <-. exact H. Qed.
Lemma D_scal_r f k c a : derivable_pt_lim f c a -> derivable_pt_lim (fun t => f t * k) c (a * k).
Proof. intros H. eapply D_eq; [apply D_mult; [exact H|apply D_const]|]. cbv beta. ring. Qed.
Lemma D_shift f c a k : derivable_pt_lim f (k + c) a -> derivable_pt_lim (fun t => f (k + t)) c a.
Proof.
  intros H. assert (E : derivable_pt_lim (fun t => k + t) c (0 + 1)) by (apply D_plus; [apply D_const|apply D_id]).
  pose proof (derivable_pt_lim_comp (fun t => k + t) f c (0 + 1) a E H) as K. replace (a * (0 + 1)) with a in K by ring. exact K.
Qed.
Lemma D_sin c : derivable_pt_lim sin c (cos c). Proof. apply derivable_pt_lim_sin. Qed.
Lemma D_cos c : derivable_pt_lim cos c (- sin c). Proof. apply derivable_pt_lim_cos. Qed.

Lemma sin_small p : Rabs (sin p) <= Rabs p.
Proof.
  pose proof (mvt0_le sin cos p 1 D_sin (fun c _ => Rabs_cos_le c)) as H. rewrite sin_0, Rminus_0_r in H. lra.
Qed.
Lemma one_cos_small p : Rabs (1 - cos p) <= p * p.
Proof.
  assert (H : Rabs (cos p - cos 0) <= Rabs p * Rabs p).
  { apply (mvt0_le cos (fun c => - sin c) p _ D_cos). intros c I. rewrite Rabs_Ropp. eapply Rle_trans; [apply sin_small|exact I]. }
  rewrite cos_0 in H. rewrite <- Rabs_mult, (Rabs_pos_eq (p * p)) in H by nra. rewrite Rabs_minus_sym. exact H.
Qed.
Lemma sin_id_small p : Rabs (p - sin p) <= Rabs p * (p * p).
Proof.
  assert (H : Rabs ((p - sin p) - (0 - sin 0)) <= (p * p) * Rabs p).
  { apply (mvt0_le (fun t => t - sin t) (fun c => 1 - cos c) p).
    - intros c. apply D_minus; [apply D_id|apply D_sin].
    - intros c I. eapply Rle_trans; [apply one_cos_small|]. rewrite <- (Rabs_pos_eq (c * c)), <- (Rabs_pos_eq (p * p)), !Rabs_mult by nra. pose proof (Rabs_pos c). nra. }
  rewrite sin_0 in H. replace (p - sin p - (0 - 0)) with (p - sin p) in H by ring. lra.
Qed.
Lemma cos_second p : Rabs (1 - cos p - p * p / 2) <= (p * p) * (p * p).
Proof.
  assert (H : Rabs ((1 - cos p - / 2 * (p * p)) - (1 - cos 0 - / 2 * (0 * 0))) <= (Rabs p * (p * p)) * Rabs p).
  { apply (mvt0_le (fun t => 1 - cos t - / 2 * (t * t)) (fun c => 0 - - sin c - / 2 * (1 * c + c * 1)) p).
    - intros c. apply D_minus; [apply D_minus; [apply D_const|apply D_cos]|]. apply D_scal. apply D_mult; apply D_id.
    - intros c I. replace (0 - - sin c - / 2 * (1 * c + c * 1)) with (- (c - sin c)) by field. rewrite Rabs_Ropp. eapply Rle_trans; [apply sin_id_small|].
      assert (c * c <= p * p). { rewrite <- (Rabs_pos_eq (c * c)), <- (Rabs_pos_eq (p * p)), !Rabs_mult by nra. pose proof (Rabs_pos c). nra. }
      pose proof (Rabs_pos c). nra. }
  rewrite cos_0 in H. replace (1 - cos p - / 2 * (p * p) - (1 - 1 - / 2 * (0 * 0))) with (1 - cos p - p * p / 2) in H by field.
  assert (Rabs p * Rabs p = p * p) by (rewrite <- Rabs_mult; apply Rabs_pos_eq; nra). nra.
Qed.

(** ** The meridian ellipse: foot points, and the radius of curvature *)
Definition G (t : R) : R := 1 - E2 * sin t * sin t.
Definition K (t : R) : R := / sqrt (G t).
Definition foot_w (t : R) : R := semi_major_axis * (cos t * K t).
Definition foot_z (t : R) : R := semi_major_axis * (1 - E2) * (sin t * K t).
Definition M (t : R) : R := semi_major_axis * (1 - E2) * (K t * K t * K t).
Lemma E2_val : 0 < E2 < 0.0066944. Proof. unfold E2. lra. Qed.
Lemma G_bounds t : 1 - E2 <= G t <= 1.
Proof. unfold G. pose proof E2_val. pose proof (sin_cos_1 t). assert (0 <= sin t * sin t <= 1) by nra. nra. Qed.
Lemma G_pos t : 0.99 < G t. Proof. pose proof (G_bounds t). pose proof E2_val. lra. Qed.
Lemma K_sq t : K t * K t * G t = 1.
Proof.
  unfold K. pose proof (G_pos t). assert (S : 0 < sqrt (G t)) by (apply sqrt_lt_R0; lra).
  replace (G t) with (sqrt (G t) * sqrt (G t)) at 3 by (apply sqrt_sqrt; lra). field. lra.
Qed.
Lemma K_pos t : 0 < K t. Proof. unfold K. apply Rinv_0_lt_compat. apply sqrt_lt_R0. pose proof (G_pos t). lra. Qed.
Lemma K_bounds t : 1 <= K t <= 1.0034.
Proof.
  pose proof (K_sq t). pose proof (K_pos t). pose proof (G_bounds t). pose proof E2_val.
  split; [apply Rnot_lt_le; intros C|apply Rnot_lt_le; intros C]; nra.
Qed.
Lemma D_G t : derivable_pt_lim G t (- (2 * E2 * sin t * cos t)).
Proof.
  unfold G. eapply D_eq; [apply D_minus; [apply D_const|]|].
  - apply (D_mult (fun t => E2 * sin t) sin t (E2 * cos t) (cos t)); [apply D_scal; apply D_sin|apply D_sin].
  - cbv beta. ring.
Qed.
Lemma D_K t : derivable_pt_lim K t (E2 * sin t * cos t * (K t * K t * K t)).
Proof.
  pose proof (G_pos t) as P. assert (S : 0 < sqrt (G t)) by (apply sqrt_lt_R0; lra).
  assert (H : derivable_pt_lim (fun t => sqrt (G t)) t (/ (2 * sqrt (G t)) * - (2 * E2 * sin t * cos t))).
  { apply (derivable_pt_lim_comp G sqrt); [apply D_G|apply derivable_pt_lim_sqrt; lra]. }
  assert (H1 : derivable_pt_lim (fun t => 1 / sqrt (G t)) t ((0 * sqrt (G t) - (/ (2 * sqrt (G t)) * - (2 * E2 * sin t * cos t)) * 1) / (sqrt (G t))²)).
  { apply (derivable_pt_lim_div (fun _ => 1) (fun t => sqrt (G t)) t 0 (/ (2 * sqrt (G t)) * - (2 * E2 * sin t * cos t))); [apply D_const|exact H|lra]. }
  apply (D_eq _ _ _ (E2 * sin t * cos t * (K t * K t * K t))) in H1; [|unfold K, Rsqr; field; lra].
  intros e He. destruct (H1 e He) as (d & Hd). exists d. intros h N L. specialize (Hd h N L). unfold K. unfold Rdiv in *. rewrite !Rmult_1_l in Hd. exact Hd.
Qed.
Lemma D_foot_w t : derivable_pt_lim foot_w t (- (M t * sin t)).
Proof.
  unfold foot_w. eapply D_eq; [apply D_scal; apply D_mult; [apply D_cos|apply D_K]|]. unfold M.
  pose proof (K_sq t) as Q. pose proof (sin_cos_1 t) as T. unfold G in Q.
  replace (- sin t * K t) with (- sin t * K t * (K t * K t * (1 - E2 * sin t * sin t))) by (rewrite Q; ring).
  replace (cos t * (E2 * sin t * cos t * (K t * K t * K t))) with (E2 * sin t * (1 - sin t * sin t) * (K t * K t * K t)) by (replace (1 - sin t * sin t) with (cos t * cos t) by lra; ring).
  ring.
Qed.
Lemma D_foot_z t : derivable_pt_lim foot_z t (M t * cos t).
Proof.
  unfold foot_z. eapply D_eq; [apply D_scal; apply D_mult; [apply D_sin|apply D_K]|]. unfold M.
  pose proof (K_sq t) as Q. unfold G in Q.
  replace (cos t * K t) with (cos t * K t * (K t * K t * (1 - E2 * sin t * sin t))) by (rewrite Q; ring). ring.
Qed.
Lemma D_M t : derivable_pt_lim M t (3 * semi_major_axis * (1 - E2) * E2 * (sin t * cos t) * (K t * K t * K t * K t * K t)).
Proof. unfold M. eapply D_eq; [apply D_scal; apply D_mult; [apply D_mult; apply D_K|apply D_K]|]. cbv beta. ring. Qed.
Lemma sc_half t : Rabs (sin t * cos t) <= / 2.
Proof. pose proof (sin_cos_1 t). apply Rabs_le. pose proof (Rle_0_sqr (sin t + cos t)) as P1. pose proof (Rle_0_sqr (sin t - cos t)) as P2. unfold Rsqr in *. lra. Qed.
Lemma M_lipschitz t p : Rabs (M (t + p) - M t) <= 66000 * Rabs p.
Proof.
  replace (M t) with (M (t + 0)) by (f_equal; ring).
  apply (mvt0_le (fun x => M (t + x)) (fun x => 3 * semi_major_axis * (1 - E2) * E2 * (sin (t + x) * cos (t + x)) * (K (t + x) * K (t + x) * K (t + x) * K (t + x) * K (t + x)))).
  - intros c. apply D_shift. apply D_M.
  - intros c _. generalize (t + c). intros x. pose proof (sc_half x) as A. pose proof (K_bounds x) as [B1 B2].
    assert (B3 : 0 <= K x * K x <= 1.007) by nra. assert (B4 : 0 <= K x * K x * K x <= 1.0105) by nra. assert (B5 : 0 <= K x * K x * K x * (K x * K x) <= 1.018) by nra.
    set (k := K x * K x * K x * (K x * K x)) in *.
    replace (3 * semi_major_axis * (1 - E2) * E2 * (sin x * cos x) * (K x * K x * K x * K x * K x)) with ((3 * semi_major_axis * (1 - E2) * E2) * (sin x * cos x) * k) by (unfold k; ring).
    assert (C : 0 <= 3 * semi_major_axis * (1 - E2) * E2 <= 127500) by (unfold semi_major_axis, E2; lra).
    set (q := 3 * semi_major_axis * (1 - E2) * E2) in *. rewrite (Rabs_mult (q * _) k), (Rabs_mult q). rewrite (Rabs_pos_eq k), (Rabs_pos_eq q) by lra.
    set (y := Rabs (sin x * cos x)) in *. assert (0 <= y) by apply Rabs_pos.
    assert (Q1 : q * y <= 127500 * / 2) by (apply Rmult_le_compat; lra).
    apply Rle_trans with (127500 * / 2 * 1.018); [apply Rmult_le_compat; [apply Rmult_le_pos; lra|lra|exact Q1|lra]|lra].
Qed.
Lemma M_bounds t : 6335000 <= M t <= 6403000.
Proof.
  pose proof (K_bounds t) as [B1 B2]. assert (B3 : 1 <= K t * K t <= 1.007) by nra. assert (B4 : 1 <= K t * K t * K t <= 1.0105) by nra.
  unfold M. assert (6335439 <= semi_major_axis * (1 - E2) <= 6335440) by (unfold semi_major_axis, E2; lra). nra.
Qed.

(** ** One step of the method *)
Definition at_w (h t : R) : R := foot_w t + h * cos t.
Definition at_z (h t : R) : R := foot_z t + h * sin t.
Lemma D_at_w h t : derivable_pt_lim (at_w h) t (- ((M t + h) * sin t)).
Proof. unfold at_w. eapply D_eq; [apply D_plus; [apply D_foot_w|apply D_scal; apply D_cos]|]. ring. Qed.
Lemma D_at_z h t : derivable_pt_lim (at_z h) t ((M t + h) * cos t).
Proof. unfold at_z. eapply D_eq; [apply D_plus; [apply D_foot_z|apply D_scal; apply D_sin]|]. ring. Qed.
Lemma cos_back t x : cos (t + x) * cos t + sin (t + x) * sin t = cos x.
Proof. rewrite <- cos_minus. f_equal. ring. Qed.
Lemma sin_back t x : sin (t + x) * cos t - cos (t + x) * sin t = sin x.
Proof. rewrite <- sin_minus. f_equal. ring. Qed.
Lemma step_error t f m p h Mp w z e :
  p * (Mp + f) = m -> h = f + m * p / 2 -> Rabs p <= 0.0003 -> Rabs m <= 1500 -> Rabs (Mp - M t) <= e -> 0 <= e <= 0.000001 ->
  Rabs ((w - foot_w t) * cos t + (z - foot_z t) * sin t - f) <= e -> Rabs ((z - foot_z t) * cos t - (w - foot_w t) * sin t - m) <= e ->
  Rabs ((at_z h (t + p) - z) * cos t - (at_w h (t + p) - w) * sin t) <= 66000 * (p * p) + 0.0003 /\
  Rabs ((at_w h (t + p) - w) * cos t + (at_z h (t + p) - z) * sin t) <= 0.00001.
Proof.
  intros Hp Hh Pp Pm HM He HN HT.
  assert (P2 : 0 <= p * p <= 0.00000009). { rewrite <- (Rabs_pos_eq (p * p)) by nra. rewrite Rabs_mult. pose proof (Rabs_pos p). nra. }
  assert (A0 : Rabs p * Rabs p = p * p) by (rewrite <- Rabs_mult; apply Rabs_pos_eq; nra).
  assert (Phf : Rabs (h - f) <= 1500 * 0.0003). { rewrite Hh. replace (f + m * p / 2 - f) with (m * p * / 2) by field. rewrite !Rabs_mult. rewrite (Rabs_pos_eq (/ 2)) by lra. pose proof (Rabs_pos p). pose proof (Rabs_pos m). nra. }
  split.
  - (* along the meridian *)
    destruct (mvt0 (fun x => at_z h (t + x) * cos t - at_w h (t + x) * sin t) (fun x => (M (t + x) + h) * cos x) p) as (c & E & I).
    { intros c. eapply D_eq.
      - apply D_minus; [apply (D_scal_r (fun x => at_z h (t + x))); apply D_shift; apply D_at_z|apply (D_scal_r (fun x => at_w h (t + x))); apply D_shift; apply D_at_w].
      - cbv beta. rewrite <- (cos_back t c). ring. }
    cbv beta in E. replace (t + 0) with t in E by ring.
    assert (E0 : at_z h t * cos t - at_w h t * sin t = foot_z t * cos t - foot_w t * sin t) by (unfold at_z, at_w; ring).
    set (mm := (z - foot_z t) * cos t - (w - foot_w t) * sin t) in *.
    replace ((at_z h (t + p) - z) * cos t - (at_w h (t + p) - w) * sin t)
      with (p * ((M (t + c) - M t) * cos c + (M t - Mp) * cos c + (h - f) * cos c) - m * (1 - cos c) - (mm - m)).
    2:{ transitivity ((at_z h (t + p) * cos t - at_w h (t + p) * sin t) - (at_z h t * cos t - at_w h t * sin t) - mm); [|rewrite E0; unfold mm; ring].
        rewrite E, <- Hp. ring. }
    pose proof (M_lipschitz t c) as L. pose proof (Rabs_cos_le c) as Cc. pose proof (one_cos_small c) as C1.
    assert (C2 : c * c <= p * p). { rewrite <- (Rabs_pos_eq (c * c)), Rabs_mult by nra. pose proof (Rabs_pos c). nra. }
    assert (L' : Rabs (M (t + c) - M t) <= 66000 * Rabs p) by lra. rewrite Rabs_minus_sym in HM.
    assert (Q : Rabs ((M (t + c) - M t) * cos c + (M t - Mp) * cos c + (h - f) * cos c) <= 66000 * Rabs p + e + 0.45).
    { eapply Rle_trans; [apply Rabs_triang|]. eapply Rle_trans; [apply Rplus_le_compat_r; apply Rabs_triang|]. rewrite !Rabs_mult.
      pose proof (Rabs_pos (M (t + c) - M t)). pose proof (Rabs_pos (M t - Mp)). pose proof (Rabs_pos (h - f)). pose proof (Rabs_pos (cos c)). nra. }
    eapply Rle_trans; [apply Rabs_triang|]. rewrite Rabs_Ropp. eapply Rle_trans; [apply Rplus_le_compat_r; apply Rabs_triang|]. rewrite Rabs_Ropp, !Rabs_mult.
    assert (Q2 : Rabs p * Rabs ((M (t + c) - M t) * cos c + (M t - Mp) * cos c + (h - f) * cos c) <= 66000 * (p * p) + 0.0003 * 0.451).
    { pose proof (Rabs_pos p). nra. }
    assert (Q3 : Rabs m * Rabs (1 - cos c) <= 1500 * 0.00000009). { apply Rmult_le_compat; try apply Rabs_pos; lra. }
    lra.
  - (* along the normal *)
    assert (D : Rabs ((at_w h (t + p) * cos t + at_z h (t + p) * sin t + (M t + h) * (1 - cos p)) - (at_w h (t + 0) * cos t + at_z h (t + 0) * sin t + (M t + h) * (1 - cos 0)))
              <= (66000 * (p * p)) * Rabs p).
    { apply (mvt0_le (fun x => at_w h (t + x) * cos t + at_z h (t + x) * sin t + (M t + h) * (1 - cos x)) (fun x => - (M (t + x) - M t) * sin x) p).
      - intros c. eapply D_eq.
        + apply D_plus; [apply D_plus; [apply (D_scal_r (fun x => at_w h (t + x))); apply D_shift; apply D_at_w|apply (D_scal_r (fun x => at_z h (t + x))); apply D_shift; apply D_at_z]|].
          apply D_scal. apply D_minus; [apply D_const|apply D_cos].
        + cbv beta. rewrite <- (sin_back t c). ring.
      - intros c I. rewrite Rabs_mult, Rabs_Ropp. pose proof (M_lipschitz t c). pose proof (sin_small c). pose proof (Rabs_pos c). pose proof (Rabs_pos (sin c)). pose proof (Rabs_pos (M (t + c) - M t)).
        apply Rle_trans with (66000 * Rabs p * Rabs p); [apply Rmult_le_compat; lra|lra]. }
    replace (t + 0) with t in D by ring. rewrite cos_0 in D.
    assert (E0 : at_w h t * cos t + at_z h t * sin t = foot_w t * cos t + foot_z t * sin t + h).
    { unfold at_z, at_w. pose proof (sin_cos_1 t). transitivity (foot_w t * cos t + foot_z t * sin t + h * (sin t * sin t + cos t * cos t)); [ring|]. rewrite H. ring. }
    rewrite E0 in D. set (ff := (w - foot_w t) * cos t + (z - foot_z t) * sin t) in *.
    set (B := at_w h (t + p) * cos t + at_z h (t + p) * sin t) in *.
    pose proof (cos_second p) as CS. pose proof (one_cos_small p) as C1.
    replace ((at_w h (t + p) - w) * cos t + (at_z h (t + p) - z) * sin t)
      with ((B + (M t + h) * (1 - cos p) - (foot_w t * cos t + foot_z t * sin t + h + (M t + h) * (1 - 1))) - ((Mp + f) * (1 - cos p - p * p / 2) + (M t - Mp + (h - f)) * (1 - cos p)) - (ff - f)).
    2:{ transitivity (B - (foot_w t * cos t + foot_z t * sin t) - ff); [|unfold B, ff; ring]. rewrite Hh, <- Hp. field. }
    assert (Q1 : 66000 * (p * p) * Rabs p <= 66000 * 0.00000009 * 0.0003). { pose proof (Rabs_pos p). apply Rmult_le_compat; nra. }
    assert (Q2 : Rabs ((Mp + f) * (1 - cos p - p * p / 2)) <= 1500 * 0.0003 * 0.00000009).
    { destruct (Req_dec p 0) as [Z|Z].
      - rewrite Z, cos_0. replace ((Mp + f) * (1 - 1 - 0 * 0 / 2)) with 0 by field. rewrite Rabs_R0. lra.
      - replace (Mp + f) with (m / p) by (rewrite <- Hp; field; exact Z). unfold Rdiv at 1. rewrite !Rabs_mult.
        assert (Pp0 : 0 < Rabs p) by (apply Rabs_pos_lt; exact Z). rewrite Rabs_inv.
        apply Rle_trans with (Rabs m * / Rabs p * ((p * p) * (p * p))); [apply Rmult_le_compat_l; [apply Rmult_le_pos; [apply Rabs_pos|left; now apply Rinv_0_lt_compat]|exact CS]|].
        replace (Rabs m * / Rabs p * ((p * p) * (p * p))) with (Rabs m * Rabs p * (p * p)) by (rewrite <- A0; field; lra).
        pose proof (Rabs_pos m). apply Rmult_le_compat; [nra|lra|apply Rmult_le_compat; lra|lra]. }
    assert (Q3 : Rabs ((M t - Mp + (h - f)) * (1 - cos p)) <= 0.451 * 0.00000009).
    { rewrite Rabs_mult. apply Rmult_le_compat; try apply Rabs_pos; [|lra]. eapply Rle_trans; [apply Rabs_triang|]. rewrite Rabs_minus_sym in HM. lra. }
    eapply Rle_trans; [apply Rabs_triang|]. rewrite Rabs_Ropp. eapply Rle_trans; [apply Rplus_le_compat_r; apply Rabs_triang|]. rewrite Rabs_Ropp.
    pose proof (Rabs_triang ((Mp + f) * (1 - cos p - p * p / 2)) ((M t - Mp + (h - f)) * (1 - cos p))). lra.
Qed.

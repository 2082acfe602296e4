(** * Geodesy in real numbers: how good the first estimate is (lemmas) *)
From Coq Require Import Reals Lra Psatz.
From Verif Require Import Geodesy GeodesyLemmas.
Open Scope R_scope.

Lemma Rabs_def2b x a : Rabs x <= a -> - a <= x <= a.
Proof. intros H. pose proof (Rle_abs x). pose proof (Rle_abs (- x)). rewrite Rabs_Ropp in *. lra. Qed.
Lemma one_A6 : Rabs ((1 - A6) * semi_major_axis - A1) <= 0.001.
Proof. apply Rabs_le. unfold A6, A1, semi_major_axis. lra. Qed.
(** the distance along the meridian that the first estimate is off *)
Lemma tangent_small r CS RX X rho kap :
  6000000 <= r -> 0 <= CS <= / 2 -> RX = r * X -> Rabs (RX - A1) <= 404 -> Rabs rho <= 1.2 * (X * X) -> Rabs (kap - 1) <= 0.0109 ->
  Rabs (r * (- CS * (X + rho)) + (1 - A6) * semi_major_axis * (CS * kap)) <= 1300 * CS.
Proof.
  intros Hr HC HX H1 H2 H3. pose proof one_A6 as HA. set (al := (1 - A6) * semi_major_axis) in *.
  apply Rabs_def2b in HA. assert (A1v : 42697 <= A1 <= 42698) by (unfold A1; lra).
  apply Rabs_def2b in H1. apply Rabs_def2b in H3.
  assert (HXp : 0 <= X <= 0.0072). { split; [apply Rnot_lt_le|apply Rnot_lt_le]; intros C; nra. }
  assert (Q : Rabs (r * rho) <= 375).
  { rewrite Rabs_mult, (Rabs_pos_eq r) by lra. apply Rle_trans with (r * (1.2 * (X * X))); [apply Rmult_le_compat_l; lra|].
    replace (r * (1.2 * (X * X))) with (1.2 * (RX * X)) by (rewrite HX; ring). nra. }
  apply Rabs_def2b in Q.
  replace (r * (- CS * (X + rho)) + al * (CS * kap)) with (CS * (- (RX - A1) - r * rho + (al - A1) * kap + A1 * (kap - 1))) by (rewrite HX; ring).
  rewrite Rabs_mult, (Rabs_pos_eq CS) by lra.
  assert (B : Rabs (- (RX - A1) - r * rho + (al - A1) * kap + A1 * (kap - 1)) <= 1300).
  { apply Rabs_le. assert (-0.0011 <= (al - A1) * kap <= 0.0011) by nra. assert (-466 <= A1 * (kap - 1) <= 466) by nra. lra. }
  pose proof (Rabs_pos (- (RX - A1) - r * rho + (al - A1) * kap + A1 * (kap - 1))). nra.
Qed.
Lemma CS_half C S : C * C + S * S = 1 -> 0 <= C -> 0 <= S -> 0 <= C * S <= / 2.
Proof. intros. pose proof (Rle_0_sqr (C - S)) as P. unfold Rsqr in P. split; nra. Qed.

(** away from the poles: the sine is estimated *)
Lemma estimate_sin r C S k :
  6000000 <= r -> 0 <= C -> 0 <= S -> C * C + S * S = 1 -> 0.3 < C * C -> 1 <= k <= 1.0034 ->
  let s := S * (1 + C * C * (A1 + A2 / r + S * S * (A3 - A4 / r)) / r) in
  let c := sqrt (1 - s * s) in
  S <= s <= 1 /\ 0.5 * C <= c /\ c * c = 1 - s * s /\ Rabs (r * (c * S - s * C) + (1 - A6) * semi_major_axis * (k * (s * c))) <= 1300 * (C * S) /\ 0.98 <= c * C + s * S.
Proof.
  intros Hr HC HS HU H3 Hk. cbv zeta.
  assert (Hu : 0 < / r <= / 6000000). { split; [apply Rinv_0_lt_compat; lra|apply Rinv_le_contravar; lra]. }
  set (T := A1 + A2 / r + S * S * (A3 - A4 / r)) in *.
  assert (HT : Rabs (T - A1) <= 404).
  { unfold T, A1, A2, A3, A4, Rdiv. assert (0 <= S * S <= 0.7) by nra. set (s2 := S * S) in *. set (u := / r) in *. apply Rabs_le. split; nra. }
  set (X := T / r).
  assert (HX : T = r * X) by (unfold X; field; lra).
  assert (XB : 0 <= X <= 0.0072). { apply Rabs_def2b in HT. assert (42697 <= A1 <= 42698) by (unfold A1; lra). split; apply Rnot_lt_le; intros Q; nra. }
  replace (C * C * T / r) with (C * C * X) by (unfold X; field; lra). clearbody X.
  set (s := S * (1 + C * C * X)) in *.
  assert (C2 : 0.3 < C * C <= 1) by nra. assert (S2 : 0 <= S * S <= 0.7) by nra. set (c2 := C * C) in *. set (s2 := S * S) in *.
  set (dl := 2 * s2 * X + s2 * c2 * (X * X)).
  assert (DB : 0 <= dl <= 0.01013). { unfold dl. assert (0 <= s2 * X <= 0.7 * 0.0072) by nra. assert (0 <= c2 * (X * X) <= 0.0000519) by nra. nra. }
  assert (E : 1 - s * s = c2 * (1 - dl)). { unfold s, dl, c2, s2. replace 1 with (C * C + S * S) at 1. replace (C * C + S * S) with ((C * C + S * S) * 1) by ring. fold c2 s2.
    replace (S * (1 + c2 * X) * (S * (1 + c2 * X))) with (s2 * (1 + c2 * X) * (1 + c2 * X)) by (unfold s2; ring).
    ring. }
  assert (Q0 : 0 <= 1 - dl) by lra. set (q := sqrt (1 - dl)).
  assert (qp : 0 <= q) by apply sqrt_pos. assert (qq : q * q = 1 - dl) by (apply sqrt_sqrt; lra).
  assert (EC : sqrt (1 - s * s) = C * q). { rewrite E. rewrite sqrt_mult by lra. f_equal. unfold c2. apply sqrt_square. exact HC. }
  rewrite EC. clearbody q.
  assert (q1 : 0 <= 1 - q <= dl) by (split; nra).
  assert (sp : S <= s) by (unfold s; assert (0 <= c2 * X) by nra; nra).
  split. { split; [exact sp|]. apply Rnot_lt_le. intros Q. assert (0 <= c2 * (1 - dl)) by (apply Rmult_le_pos; lra). nra. }
  split; [nra|]. split. { replace (C * q * (C * q)) with (c2 * (q * q)) by (unfold c2; ring). rewrite qq. lra. }
  split.
  - replace (r * (C * q * S - s * C)) with (r * (- (C * S) * (X + ((1 - q) - s2 * X)))).
    2:{ unfold s. replace c2 with (1 - s2) by lra. ring. }
    replace (k * (s * (C * q))) with ((C * S) * (k * (1 + c2 * X) * q)) by (unfold s; ring).
    apply (tangent_small r (C * S) T X); [exact Hr|apply CS_half; assumption|exact HX|exact HT| |].
    + replace (1 - q - s2 * X) with (s2 * c2 * (X * X) / 2 + (1 - q) * (1 - q) / 2).
      2:{ assert (dl = (1 - q) * (1 + q)) by (replace ((1 - q) * (1 + q)) with (1 - q * q) by ring; lra). unfold dl in *. lra. }
      assert (F1 : 0 <= s2 * c2 <= 0.25) by (unfold s2, c2; replace (S * S * (C * C)) with ((C * S) * (C * S)) by ring; pose proof (CS_half C S HU HC HS); nra).
      assert (F2 : dl <= 1.41 * X). { unfold dl. assert (s2 * c2 * (X * X) <= 0.25 * (0.0072 * X)) by (apply Rmult_le_compat; nra). nra. }
      assert (F3 : 0 <= (1 - q) * (1 - q) <= 1.9881 * (X * X)). { split; [nra|]. apply Rle_trans with ((1.41 * X) * (1.41 * X)); [apply Rmult_le_compat; lra|nra]. }
      assert (F4 : 0 <= X * X) by nra. assert (F5 : 0 <= s2 * c2 * (X * X) <= 0.25 * (X * X)) by nra. rewrite Rabs_pos_eq by lra. lra.
    + assert (G1 : 0 <= c2 * X <= 0.0072) by nra. assert (G2 : 1 <= k * (1 + c2 * X) <= 1.01063) by nra. apply Rabs_le. split; [nra|]. nra.
  - assert (0 <= c2 * X) by nra. assert (s * S = s2 * (1 + c2 * X)) by (unfold s, s2; ring). replace (C * q * C) with (c2 * q) by (unfold c2; ring). nra.
Qed.
(** near the poles: the cosine is estimated *)
Lemma estimate_cos r C S k :
  6000000 <= r -> 0 <= C -> 0 <= S -> C * C + S * S = 1 -> C * C <= 0.3 -> 1 <= k <= 1.0034 ->
  let c := C * (1 - S * S * (A5 - A2 / r - C * C * (A3 - A4 / r)) / r) in
  let s := sqrt (1 - c * c) in
  0.5 * C <= c <= 1 /\ S <= s /\ s * s = 1 - c * c /\ Rabs (r * (c * S - s * C) + (1 - A6) * semi_major_axis * (k * (s * c))) <= 1300 * (C * S) /\ 0.98 <= c * C + s * S.
Proof.
  intros Hr HC HS HU H3 Hk. cbv zeta.
  assert (Hu : 0 < / r <= / 6000000). { split; [apply Rinv_0_lt_compat; lra|apply Rinv_le_contravar; lra]. }
  set (T := A5 - A2 / r - C * C * (A3 - A4 / r)) in *.
  assert (HT : Rabs (T - A1) <= 404).
  { unfold T, A1, A2, A3, A4, A5, Rdiv. assert (0 <= C * C <= 0.3) by nra. set (s2 := C * C) in *. set (u := / r) in *. apply Rabs_le. split; nra. }
  set (X := T / r).
  assert (HX : T = r * X) by (unfold X; field; lra).
  assert (XB : 0 <= X <= 0.0072). { apply Rabs_def2b in HT. assert (42697 <= A1 <= 42698) by (unfold A1; lra). split; apply Rnot_lt_le; intros Q; nra. }
  replace (S * S * T / r) with (S * S * X) by (unfold X; field; lra). clearbody X.
  set (c := C * (1 - S * S * X)) in *.
  assert (C2 : 0 <= C * C <= 0.3) by nra. assert (S2 : 0.7 <= S * S <= 1) by nra. set (c2 := C * C) in *. set (s2 := S * S) in *.
  set (ep := 2 * c2 * X - c2 * s2 * (X * X)).
  assert (DB : 0 <= ep <= 0.6 * X). { unfold ep. assert (0 <= c2 * X <= 0.3 * X) by nra. assert (0 <= s2 * X <= 1) by nra. assert (0 <= c2 * X * (s2 * X) <= c2 * X) by nra. nra. }
  assert (E : 1 - c * c = s2 * (1 + ep)). { unfold c, ep, c2, s2. replace 1 with (C * C + S * S) at 1. fold c2 s2.
    replace (C * (1 - s2 * X) * (C * (1 - s2 * X))) with (c2 * (1 - s2 * X) * (1 - s2 * X)) by (unfold c2; ring).
    ring. }
  assert (Q0 : 0 <= 1 + ep) by lra. set (q := sqrt (1 + ep)).
  assert (qp : 0 <= q) by apply sqrt_pos. assert (qq : q * q = 1 + ep) by (apply sqrt_sqrt; lra).
  assert (EC : sqrt (1 - c * c) = S * q). { rewrite E. rewrite sqrt_mult by lra. f_equal. unfold s2. apply sqrt_square. exact HS. }
  rewrite EC. clearbody q.
  assert (q1 : 0 <= q - 1 <= ep / 2) by (split; nra).
  assert (sX : 0 <= s2 * X <= 0.0072) by nra.
  assert (cp : 0.5 * C <= c) by (unfold c; nra).
  split. { split; [exact cp|]. apply Rnot_lt_le. intros Q. assert (0 <= s2 * (1 + ep)) by nra. nra. }
  split; [nra|]. split. { replace (S * q * (S * q)) with (s2 * (q * q)) by (unfold s2; ring). rewrite qq. lra. }
  split.
  - replace (r * (c * S - S * q * C)) with (r * (- (C * S) * (X + ((q - 1) - c2 * X)))).
    2:{ unfold c. replace s2 with (1 - c2) by lra. ring. }
    replace (k * (S * q * c)) with ((C * S) * (k * (1 - s2 * X) * q)) by (unfold c; ring).
    apply (tangent_small r (C * S) T X); [exact Hr|apply CS_half; assumption|exact HX|exact HT| |].
    + replace (q - 1 - c2 * X) with (- (c2 * s2 * (X * X) / 2 + (q - 1) * (q - 1) / 2)).
      2:{ assert (ep = (q - 1) * (q + 1)) by (replace ((q - 1) * (q + 1)) with (q * q - 1) by ring; lra). unfold ep in *. lra. }
      rewrite Rabs_Ropp.
      assert (F1 : 0 <= c2 * s2 <= 0.25) by (unfold s2, c2; replace (C * C * (S * S)) with ((C * S) * (C * S)) by ring; pose proof (CS_half C S HU HC HS); nra).
      assert (F3 : 0 <= (q - 1) * (q - 1) <= 0.09 * (X * X)). { split; [nra|]. apply Rle_trans with ((0.3 * X) * (0.3 * X)); [apply Rmult_le_compat; lra|nra]. }
      assert (F4 : 0 <= X * X) by nra. assert (F5 : 0 <= c2 * s2 * (X * X) <= 0.25 * (X * X)) by nra. rewrite Rabs_pos_eq by lra. lra.
    + assert (G2 : 0.9928 <= k * (1 - s2 * X) <= 1.0034) by nra. apply Rabs_le. split; nra.
  - assert (c * C = c2 * (1 - s2 * X)) by (unfold c, c2; ring). replace (S * q * S) with (s2 * q) by (unfold s2; ring). nra.
Qed.

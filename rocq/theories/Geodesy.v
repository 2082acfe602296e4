(** * Geodesy: between geocentric (ECEF) and geodetic (latitude, longitude, altitude) positions

    Models dis-rs/src/utils.rs. Simplification: f64 arithmetic and the functions of libm are modelled by real arithmetic and the real functions (so a division
    by zero, at the centre of the earth, has no meaning here; the code gets NaN). The constants are the decimal numbers of the source. *)
From Coq Require Import Reals.
Open Scope R_scope.

(* utils.rs:1-13 *)
Definition semi_major_axis : R := 6378137.
Definition E2 : R := 6.6943799901377997e-3.
Definition A1 : R := 4.2697672707157535e4.
Definition A2 : R := 1.8230912546075455e9.
Definition A3 : R := 1.4291722289812413e2.
Definition A4 : R := 4.5577281365188637e9.
Definition A5 : R := 4.2840589930055659e4.
Definition A6 : R := 9.9330562000986220e-1.

(** f64::atan2: the angle of the point (x, y), between -pi and pi *)
Definition atan2 (y x : R) : R :=
  if Rlt_dec 0 x then atan (y / x)
  else if Rlt_dec x 0 then (if Rle_dec 0 y then atan (y / x) + PI else atan (y / x) - PI)
  else if Rlt_dec 0 y then PI / 2 else if Rlt_dec y 0 then - (PI / 2) else 0.

(* utils.rs:21-63 *)
Definition ecef_to_geodetic_lla (x y z : R) : R * R * R :=
  let zp := Rabs z in
  let w2 := x * x + y * y in
  let w := sqrt w2 in
  let r2 := w2 + z * z in
  let r := sqrt r2 in
  let longitude := atan2 y x in
  let s2 := z * z / r2 in
  let c2 := w2 / r2 in
  let u := A2 / r in
  let v := A3 - A4 / r in
  let '(latitude, s, ss, c) :=
    if Rlt_dec 0.3 c2 then
      let s := (zp / r) * (1 + c2 * (A1 + u + s2 * v) / r) in
      let latitude := asin s in
      let ss := s * s in
      let c := sqrt (1 - ss) in
      (latitude, s, ss, c)
    else
      let c := (w / r) * (1 - s2 * (A5 - u - c2 * v) / r) in
      let latitude := acos c in
      let ss := 1 - c * c in
      let s := sqrt ss in
      (latitude, s, ss, c) in
  let g := 1 - E2 * ss in
  let rg := semi_major_axis / sqrt g in
  let rf := A6 * rg in
  let u := w - rg * c in
  let v := zp - rf * s in
  let f := c * u + s * v in
  let m := c * v - s * u in
  let p := m / (rf / g + f) in
  let latitude := latitude + p in
  let altitude := f + m * p / 2 in
  let latitude := if Rlt_dec z 0 then latitude * -1 else latitude in
  (latitude, longitude, altitude).

(* utils.rs:71-79 *)
Definition geodetic_lla_to_ecef (latitude longitude altitude_msl : R) : R * R * R :=
  let n := semi_major_axis / sqrt (1 - E2 * sin latitude * sin latitude) in
  let ecef_x := (n + altitude_msl) * cos latitude * cos longitude in
  let ecef_y := (n + altitude_msl) * cos latitude * sin longitude in
  let ecef_z := (n * (1 - E2) + altitude_msl) * sin latitude in
  (ecef_x, ecef_y, ecef_z).

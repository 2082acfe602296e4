(** * What a bit pattern denotes: IEEE 754 binary32, as real numbers *)
From Coq Require Import ZArith Reals.
Open Scope R_scope.

Definition f32_exponent (b : Z) : Z := (b / 2 ^ 23) mod 256.
Definition f32_fraction (b : Z) : Z := b mod 2 ^ 23.
(** neither an infinity nor a NaN *)
Definition f32_finite (b : Z) : Prop := (0 <= b < 2 ^ 32)%Z /\ f32_exponent b <> 255%Z.
Definition f32_value (b : Z) : R :=
  (if (2 ^ 31 <=? b)%Z then -1 else 1) *
  (if (f32_exponent b =? 0)%Z then IZR (f32_fraction b) * powerRZ 2 (-149) else IZR (2 ^ 23 + f32_fraction b) * powerRZ 2 (f32_exponent b - 150)).
(** binary64, in the same way *)
Definition f64_exponent (b : Z) : Z := (b / 2 ^ 52) mod 2048.
Definition f64_fraction (b : Z) : Z := b mod 2 ^ 52.
Definition f64_finite (b : Z) : Prop := (0 <= b < 2 ^ 64)%Z /\ f64_exponent b <> 2047%Z.
Definition f64_value (b : Z) : R :=
  (if (2 ^ 63 <=? b)%Z then -1 else 1) *
  (if (f64_exponent b =? 0)%Z then IZR (f64_fraction b) * powerRZ 2 (-1074) else IZR (2 ^ 52 + f64_fraction b) * powerRZ 2 (f64_exponent b - 1075)).
(** the nearest number of the interval *)
Definition clip (lo hi v : R) : R := Rmax lo (Rmin hi v).
Definition within (e : R) (a b : R) : Prop := Rabs (a - b) <= e.
(** [b'] is received for the number [b] sent: within [eps] of it, or of the nearest number in the range from [lo] to [hi] *)
Definition carried (eps lo hi : R) (b b' : Z) : Prop := f32_finite b -> f32_finite b' /\ within eps (f32_value b') (clip lo hi (f32_value b)).
(** ... for numbers in the range from [lo] to [hi] *)
Definition arrives (eps lo hi : R) (b b' : Z) : Prop := f32_finite b -> lo <= f32_value b <= hi -> f32_finite b' /\ within eps (f32_value b') (f32_value b).
(** an angle in radians, up to whole turns of 6.2831855, the single precision number nearest to 2 pi *)
Definition turn : R := 13176795 / 2097152.
Definition same_angle (eps : R) (b b' : Z) : Prop := f32_finite b -> f32_finite b' /\ exists k : Z, within eps (f32_value b') (f32_value b + IZR k * turn).

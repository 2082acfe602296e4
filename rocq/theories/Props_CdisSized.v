(** * Properties: CdisSized

    Theorems only: each is closed by the lemma of the same name in L_CdisSized.v. *)
From Coq Require Import ZArith List Lia Bool String Ascii.
From Verif Require Import Base CdisBase CdisSized SpecCdis SpecCdisSized L_CdisBits L_CdisSized.
Import ListNotations. Open Scope Z_scope.

(** C23. The number of a variable-length integer is a public field, the size is fixed when it is built. If a program builds it from v0 and then overwrites
   the number with v, the size stays that of v0: what is read back is v modulo 2 to that many bits, so v itself exactly when it fits the size of v0.
   A larger number is cut without a word. *)
Theorem uvint_overwritten : forall v0 v,
  (0 <= v0 <= 255 -> 0 <= v <= 255 -> let n := len_uvint8 v0 - 1 in let w := ser_uvint8 (set_value (uvint8_from v0) v) in
     reads_back w p_uvint8 (v mod 2 ^ n) (1 + n) /\ (reads_back w p_uvint8 v (1 + n) <-> unsigned_fits v n)) /\
  (0 <= v0 <= 65535 -> 0 <= v <= 65535 -> let n := len_uvint16 v0 - 2 in let w := ser_uvint16 (set_value (uvint16_from v0) v) in
     reads_back w p_uvint16 (v mod 2 ^ n) (2 + n) /\ (reads_back w p_uvint16 v (2 + n) <-> unsigned_fits v n)) /\
  (0 <= v0 <= 4294967295 -> 0 <= v <= 4294967295 -> let n := len_uvint32 v0 - 2 in let w := ser_uvint32 (set_value (uvint32_from v0) v) in
     reads_back w p_uvint32 (v mod 2 ^ n) (2 + n) /\ (reads_back w p_uvint32 v (2 + n) <-> unsigned_fits v n)).
Proof. exact uvint_overwritten_pf. Qed.
Print Assumptions uvint_overwritten.

Example uvint_overwritten_example : run_at (ser_uvint8 (set_value (uvint8_from 3) 200)) (repeat true 7) 1 =
  Some ([true] ++ [false] ++ [true; false; false; false] ++ [true], 6) /\ ~ unsigned_fits 200 (len_uvint8 3 - 1).
Proof. split; [reflexivity|]. unfold unsigned_fits. cbn. lia. Qed.

(** C24. The same for the signed integers of 16-bit type, for any two numbers of that type: the size is the one chosen for v0 (the largest when none
   holds v0) and what comes back is the sign and the low bits of v, so v itself exactly when it fits that size. When the size is 3, 5, 7, 9 or 13 bits
   and v is at the far negative end of the type, an intermediate result overflows: a build with overflow checks panics wherever it writes. *)
Theorem svint_overwritten : forall m v0 v, -32768 <= v0 <= 32767 -> -32768 <= v <= 32767 ->
  (let n := len_svint12 v0 - 2 in let w := ser_svint12 m (set_value (svint12_from v0) v) in
     (m = Wrapping \/ ~ overflows 16 n v -> reads_back w p_svint12 (sign_and_low_bits v n) (2 + n) /\ (reads_back w p_svint12 v (2 + n) <-> signed_fits v n)) /\
     (m = Checked -> overflows 16 n v -> forall buf cursor, run_at w buf cursor = None)) /\
  (let n := len_svint13 v0 - 2 in let w := ser_svint13 m (set_value (svint13_from v0) v) in
     (m = Wrapping \/ ~ overflows 16 n v -> reads_back w p_svint13 (sign_and_low_bits v n) (2 + n) /\ (reads_back w p_svint13 v (2 + n) <-> signed_fits v n)) /\
     (m = Checked -> overflows 16 n v -> forall buf cursor, run_at w buf cursor = None)) /\
  (let n := len_svint14 v0 - 2 in let w := ser_svint14 m (set_value (svint14_from v0) v) in
     (m = Wrapping \/ ~ overflows 16 n v -> reads_back w p_svint14 (sign_and_low_bits v n) (2 + n) /\ (reads_back w p_svint14 v (2 + n) <-> signed_fits v n)) /\
     (m = Checked -> overflows 16 n v -> forall buf cursor, run_at w buf cursor = None)) /\
  (let n := len_svint16 v0 - 2 in let w := ser_svint16 m (set_value (svint16_from v0) v) in
     (m = Wrapping \/ ~ overflows 16 n v -> reads_back w p_svint16 (sign_and_low_bits v n) (2 + n) /\ (reads_back w p_svint16 v (2 + n) <-> signed_fits v n)) /\
     (m = Checked -> overflows 16 n v -> forall buf cursor, run_at w buf cursor = None)).
Proof. exact svint_overwritten_pf. Qed.
Print Assumptions svint_overwritten.

(** C24. In particular a number outside the 12, 13 or 14 bits of its kind can be built without complaint and comes back changed: the largest size is
   chosen and cuts it. *)
Theorem svint_out_of_range_refuted : forall m v, -32768 <= v <= 32767 ->
  (~ signed_fits v 12 -> reads_back (ser_svint12 m (svint12_from v)) p_svint12 (sign_and_low_bits v 12) 14 /\ sign_and_low_bits v 12 <> v) /\
  (~ signed_fits v 14 -> reads_back (ser_svint14 m (svint14_from v)) p_svint14 (sign_and_low_bits v 14) 16 /\ sign_and_low_bits v 14 <> v).
Proof. exact svint_out_of_range_refuted_pf. Qed.
Print Assumptions svint_out_of_range_refuted.

Example svint_overwritten_example : (forall buf, run_at (ser_svint12 Checked (set_value (svint12_from 0) (-32768))) buf 0 = None) /\
  run_at (ser_svint12 Wrapping (set_value (svint12_from 0) (-32767))) (repeat true 6) 1 = Some ([true] ++ [false; false] ++ [true; false; true], 6) /\
  sign_and_low_bits 5000 12 = 904 /\ ~ signed_fits 5000 12.
Proof. split; [reflexivity|]. split; [reflexivity|]. split; [reflexivity|]. unfold signed_fits. cbn. lia. Qed.

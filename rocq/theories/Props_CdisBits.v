(** * Properties: CdisBits

    Theorems only: each is closed by the lemma of the same name in L_CdisBits.v. *)
From Coq Require Import ZArith List Lia Bool String Ascii.
From Verif Require Import Base CdisBase CdisBodies1 CdisBodies2 SpecCdis L_CdisBits.
Import ListNotations. Open Scope Z_scope.

(** C23. A u8 written as UVINT8 is read back as the same value from any cursor of any buffer, and the bits written are the one-bit size flag and the
   smaller of 4 and 8 bits that holds the value; that number is the record length the type reports. *)
Theorem uvint8_roundtrip : forall v, 0 <= v <= 255 ->
  reads_back (w_uvint8 v) p_uvint8 v (len_uvint8 v) /\ writes_bits (w_uvint8 v) (len_uvint8 v) /\
  smallest [4; 8] (unsigned_fits v) (len_uvint8 v - 1).
Proof. exact uvint8_roundtrip_pf. Qed.
Print Assumptions uvint8_roundtrip.

(** C23. The same for a u16 as UVINT16: a two-bit flag and the smallest of 8, 11, 14 and 16 bits. *)
Theorem uvint16_roundtrip : forall v, 0 <= v <= 65535 ->
  reads_back (w_uvint16 v) p_uvint16 v (len_uvint16 v) /\ writes_bits (w_uvint16 v) (len_uvint16 v) /\
  smallest [8; 11; 14; 16] (unsigned_fits v) (len_uvint16 v - 2).
Proof. exact uvint16_roundtrip_pf. Qed.
Print Assumptions uvint16_roundtrip.

(** C23. The same for a u32 as UVINT32: a two-bit flag and the smallest of 8, 15, 18 and 32 bits. *)
Theorem uvint32_roundtrip : forall v, 0 <= v <= 4294967295 ->
  reads_back (w_uvint32 v) p_uvint32 v (len_uvint32 v) /\ writes_bits (w_uvint32 v) (len_uvint32 v) /\
  smallest [8; 15; 18; 32] (unsigned_fits v) (len_uvint32 v - 2).
Proof. exact uvint32_roundtrip_pf. Qed.
Print Assumptions uvint32_roundtrip.

Example uvint16_example : run_at (w_uvint16 300) (repeat true 20) 3 =
  Some ([true; true; true] ++ [false; true] ++ [false; false; true; false; false; true; false; true; true; false; false] ++ [true; true; true; true], 16).
Proof. reflexivity. Qed.

(** C24. A value of 12-bit two's complement range written as SVINT12 is read back from any cursor; the bits written are a two-bit flag and the
   smallest of 3, 6, 9 and 12 bits that holds the value, in checked and in wrapping arithmetic. *)
Theorem svint12_roundtrip : forall m v, -2048 <= v <= 2047 ->
  reads_back (w_svint12 m v) p_svint12 v (len_svint12 v) /\ writes_bits (w_svint12 m v) (len_svint12 v) /\
  smallest [3; 6; 9; 12] (signed_fits v) (len_svint12 v - 2).
Proof. exact svint12_roundtrip_pf. Qed.
Print Assumptions svint12_roundtrip.

(** C24. SVINT13: sizes 5, 7, 10 and 13. *)
Theorem svint13_roundtrip : forall m v, -4096 <= v <= 4095 ->
  reads_back (w_svint13 m v) p_svint13 v (len_svint13 v) /\ writes_bits (w_svint13 m v) (len_svint13 v) /\
  smallest [5; 7; 10; 13] (signed_fits v) (len_svint13 v - 2).
Proof. exact svint13_roundtrip_pf. Qed.
Print Assumptions svint13_roundtrip.

(** C24. SVINT14: sizes 4, 7, 9 and 14. *)
Theorem svint14_roundtrip : forall m v, -8192 <= v <= 8191 ->
  reads_back (w_svint14 m v) p_svint14 v (len_svint14 v) /\ writes_bits (w_svint14 m v) (len_svint14 v) /\
  smallest [4; 7; 9; 14] (signed_fits v) (len_svint14 v - 2).
Proof. exact svint14_roundtrip_pf. Qed.
Print Assumptions svint14_roundtrip.

(** C24. SVINT16: sizes 8, 12, 13 and 16. *)
Theorem svint16_roundtrip : forall m v, -32768 <= v <= 32767 ->
  reads_back (w_svint16 m v) p_svint16 v (len_svint16 v) /\ writes_bits (w_svint16 m v) (len_svint16 v) /\
  smallest [8; 12; 13; 16] (signed_fits v) (len_svint16 v - 2).
Proof. exact svint16_roundtrip_pf. Qed.
Print Assumptions svint16_roundtrip.

(** C24. SVINT24: sizes 16, 19, 21 and 24. Every value keeps its size, and every value from -1048576 on is read back; what the others become is the
   next theorem. *)
Theorem svint24_roundtrip : forall m v, -8388608 <= v <= 8388607 ->
  (-1048576 <= v -> reads_back (w_svint24 m v) p_svint24 v (len_svint24 v)) /\ writes_bits (w_svint24 m v) (len_svint24 v) /\
  smallest [16; 19; 21; 24] (signed_fits v) (len_svint24 v - 2).
Proof. exact svint24_roundtrip_pf. Qed.
Print Assumptions svint24_roundtrip.

(** C24. The full claim fails for SVINT24: every value below -1048576 is read back as a positive number, 2^24 too large (the minimum of the 24-bit size
   lacks its sign). *)
Theorem svint24_roundtrip_refuted : forall m v, -8388608 <= v < -1048576 ->
  reads_back (w_svint24 m v) p_svint24 (v + 16777216) (len_svint24 v).
Proof. exact svint24_roundtrip_refuted_pf. Qed.
Print Assumptions svint24_roundtrip_refuted.

Example svint12_example : run_at (w_svint12 Checked (-5)) (repeat false 9) 1 = Some ([false] ++ [false; true] ++ [true; true; true; false; true; true], 9).
Proof. reflexivity. Qed.

(** C25. An unsigned field: for every width n from 1 to the width ty of its Rust type, every cursor and every buffer with room, writing stores exactly
   the n low bits and nothing else, advances the cursor by n, and reading n bits there returns the value modulo 2^n: the value itself when it
   fits. *)
Theorem unsigned_field : forall ty n v, 1 <= n <= ty -> 0 <= v ->
  writes_bits (bput ty n v) n /\ reads_back (bput ty n v) (btake n) (v mod 2 ^ n) n /\
  (unsigned_fits v n -> reads_back (bput ty n v) (btake n) v n).
Proof. exact unsigned_field_pf. Qed.
Print Assumptions unsigned_field.

(** C25. A signed field of n bits, n even or at least two less than the width of its Rust type (all the widths in use): the same, with the value's
   two's complement pattern on the wire; neither mode of integer arithmetic panics. *)
Theorem signed_field : forall m ty n v, 2 <= n <= ty -> n + 2 <= ty \/ Z.even n = true -> signed_fits v n ->
  writes_bits (bput_s m ty n v) n /\ reads_back (bput_s m ty n v) (btake_s n) v n /\
  reads_back (bput_s m ty n v) (btake n) (twos_complement v n) n.
Proof. exact signed_field_pf. Qed.
Print Assumptions signed_field.

(** C25. A width of zero or beyond the Rust type is refused by a panic, whatever the buffer. *)
Theorem bad_width_panics : forall ty n v buf cursor, n < 1 \/ ty < n -> run_at (bput ty n v) buf cursor = None.
Proof. exact bad_width_panics_pf. Qed.
Print Assumptions bad_width_panics.

(** C25. Two fields one after the other, at any cursor: both are read back in order (the second does not disturb the first). *)
Theorem adjacent_fields : forall ty1 n1 v1 ty2 n2 v2, 1 <= n1 <= ty1 -> 1 <= n2 <= ty2 -> unsigned_fits v1 n1 -> unsigned_fits v2 n2 ->
  reads_back (bput ty1 n1 v1;; bput ty2 n2 v2)%write (a <- btake n1;; b <- btake n2;; pret (a, b))%parse (v1, v2) (n1 + n2).
Proof. exact adjacent_fields_pf. Qed.
Print Assumptions adjacent_fields.

Example signed_field_example : run_at (bput_s Checked 16 13 (-7)) (repeat false 16) 2 =
  Some ([false; false] ++ [true; true; true; true; true; true; true; true; true; true; false; false; true] ++ [false], 15).
Proof. reflexivity. Qed.

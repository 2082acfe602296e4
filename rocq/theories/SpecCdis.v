(** * Specification vocabulary for the C-DIS properties

    Plain functions on bit lists; nothing here refers to the helpers of the C-DIS model except the result types of its writers and parsers. *)
From Coq Require Import ZArith List Lia Bool.
From Verif Require Import Base CdisBase.
Import ListNotations. Open Scope Z_scope.

(** the bits of [buf] from position [c] on, and the bit at position [i] *)
Definition from {A} (buf : list A) (c : Z) : list A := skipn (Z.to_nat c) buf.
Definition bit_at (buf : list bool) (i : Z) : option bool := nth_error buf (Z.to_nat i).

(** Outside [cursor, cursor + n) the two buffers are the same. *)
Definition unchanged_outside (buf buf' : list bool) (cursor n : Z) : Prop :=
  zlen buf' = zlen buf /\ forall i, 0 <= i -> i < cursor \/ cursor + n <= i -> bit_at buf' i = bit_at buf i.

(** A writer stores exactly [n] bits at any cursor of any buffer with room for them, returns the cursor [n] positions further, and touches no
    other bit; without room it panics. *)
Definition writes_bits (w : BW) (n : Z) : Prop := forall buf cursor, 0 <= cursor ->
  (cursor + n <= zlen buf -> exists buf', run_at w buf cursor = Some (buf', cursor + n) /\ unchanged_outside buf buf' cursor n) /\
  (zlen buf < cursor + n -> run_at w buf cursor = None).

(** ... and the reader, started at the same cursor, consumes exactly those [n] bits and returns [x]. *)
Definition reads_back {A} (w : BW) (p : bitparser A) (x : A) (n : Z) : Prop := forall buf cursor, 0 <= cursor -> cursor + n <= zlen buf ->
  exists buf', run_at w buf cursor = Some (buf', cursor + n) /\ unchanged_outside buf buf' cursor n /\
               p (from buf' cursor) = POk (from buf' (cursor + n)) x.

(** [n] is the smallest of the allowed sizes that suffices *)
Definition smallest (sizes : list Z) (suffices : Z -> Prop) (n : Z) : Prop :=
  In n sizes /\ suffices n /\ forall k, In k sizes -> suffices k -> n <= k.
(** the ranges of unsigned and two's complement numbers of [k] bits *)
Definition unsigned_fits (v k : Z) : Prop := 0 <= v < 2 ^ k.
Definition signed_fits (v k : Z) : Prop := - 2 ^ (k - 1) <= v < 2 ^ (k - 1).
(** the two's complement pattern of [v] in [k] bits, as an unsigned number *)
Definition twos_complement (v k : Z) : Z := if v <? 0 then v + 2 ^ k else v.

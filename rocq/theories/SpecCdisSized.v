(** * Specification: a signed number in a size chosen for another number *)
From Coq Require Import ZArith.
Open Scope Z_scope.

(** what [n] bits keep of [v]: its sign, and the n - 1 low bits of its two's complement *)
Definition sign_and_low_bits (v n : Z) : Z := (if v <? 0 then - 2 ^ (n - 1) else 0) + v mod 2 ^ (n - 1).
(** the sizes and numbers for which an intermediate result exceeds a Rust type of [ty] bits *)
Definition overflows (ty n v : Z) : Prop := Z.odd n = true /\ v <= 2 ^ (n - 1) - 2 ^ (ty - 1).

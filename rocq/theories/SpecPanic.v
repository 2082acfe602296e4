(** * What makes a build with overflow checks panic while parsing, in terms of the octets (C12)

    Offsets are those of IEEE 1278.1-2012 clause 7; nothing here refers to the parser.  [u16_at], [Reads] and
    [short_signal] are in SpecWire. *)
From Coq Require Import ZArith List Lia.
From Verif Require Import Base SpecWire.
Import ListNotations.
Open Scope Z_scope.

(** the big-endian 32-bit number at offset [k] *)
Definition u32_at (l : list Z) (k : nat) : Z := u16_at l k * 65536 + u16_at l (S (S k)).

(** The octets start with variable transmitter parameter records, at most [n] of them, the last of which announces
    a length (octets 4-5 of the record, counting the six octets of type and length) below six. *)
Inductive short_record : Z -> list Z -> Prop :=
| short_record_here n i : 0 < n -> 6 <= zlen i -> u16_at i 4 < 6 -> short_record n i
| short_record_later n i : 0 < n -> 6 <= u16_at i 4 <= zlen i ->
    short_record (n - 1) (skipn (Z.to_nat (u16_at i 4)) i) -> short_record n i.
(** A Transmitter PDU of protocol version 7 with such a record.  The records are after the fixed 104 octets, the
    modulation parameters (octet 100 gives their length) and the antenna pattern, present if its length (octets
    70-71) is not zero; octets 30-31 hold the number of records. *)
Definition short_transmitter (i : list Z) : Prop :=
  let start := 104 + nth 100 i 0 + (if 0 <? u16_at i 70 then 40 else 0) in
  nth 2 i 0 = 25 /\ nth 0 i 0 = 7 /\ start <= zlen i /\ short_record (u16_at i 30) (skipn (Z.to_nat start) i).

(** The octets start with record sets, at most [n] of them, in the last of which the records together take 65536
    octets or more.  A set has 16 octets, of which 12-13 hold the length of one record in bits and 14-15 the number of
    records; then the records, each in whole octets, and zeros to a multiple of eight. *)
Definition record_octets (i : list Z) : Z := (u16_at i 12 + 7) / 8 * u16_at i 14.
Inductive huge_set : Z -> list Z -> Prop :=
| huge_set_here n i : 0 < n -> 16 + record_octets i <= zlen i -> 65536 <= record_octets i -> huge_set n i
| huge_set_later n i : 0 < n -> 16 + (record_octets i + 7) / 8 * 8 <= zlen i -> record_octets i < 65536 ->
    huge_set (n - 1) (skipn (Z.to_nat (16 + (record_octets i + 7) / 8 * 8)) i) -> huge_set n i.
(** A Transfer Ownership (35), Set Record-R (64) or Record-R PDU (63) with such a set: the number of sets is at octet 36, 36
    or 38, and the sets follow it. *)
Definition huge_record_specification (i : list Z) : Prop :=
  (nth 2 i 0 = 35 \/ nth 2 i 0 = 64) /\ 40 <= zlen i /\ huge_set (u32_at i 36) (skipn 40 i) \/
  nth 2 i 0 = 63 /\ 42 <= zlen i /\ huge_set (u32_at i 38) (skipn 42 i).

(** An Aggregate State PDU whose aggregate and entity identifiers (octets 124-125 and 126-127 hold their numbers), all there, take
    the body beyond 65535 octets. *)
Definition huge_aggregate (i : list Z) : Prop :=
  let ids := 6 * (u16_at i 124 + u16_at i 126) in
  nth 2 i 0 = 33 /\ 132 + ids <= zlen i /\ 65536 <= 124 + ids.

(** The octets start with a PDU that a build with overflow checks cannot read without panicking. *)
Definition overflowing_pdu (i : list Z) : Prop :=
  short_signal i \/ short_transmitter i \/ huge_record_specification i \/ huge_aggregate i.

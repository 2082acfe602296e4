(** * Specification vocabulary for the wire-level properties

    Nothing here refers to the code's own helpers: tables from IEEE 1278.1-2012 and
    plain list functions. *)
From Coq Require Import ZArith List Lia Bool.
From Verif Require Import Base.
Import ListNotations. Open Scope Z_scope.

(** Table of PDU types and their protocol families (SISO-REF-010, UID 4 and 5). *)
Definition dis_families : list (Z * list Z) :=
  [ (0,  [0]);
    (1,  [1; 4; 66; 67; 72]);                                    (* Entity Information/Interaction *)
    (2,  [2; 3; 68; 69]);                                        (* Warfare *)
    (3,  [5; 6; 7; 8; 9; 10]);                                   (* Logistics *)
    (4,  [25; 26; 27; 31; 32]);                                  (* Radio Communication *)
    (5,  [11; 12; 13; 14; 15; 16; 17; 18; 19; 20; 21; 22]);      (* Simulation Management *)
    (6,  [23; 24; 28; 29; 30]);                                  (* Distributed Emission Regeneration *)
    (7,  [33; 34; 35; 36]);                                      (* Entity Management *)
    (8,  [37; 38; 39; 40]);                                      (* Minefield *)
    (9,  [41; 42; 43; 44; 45]);                                  (* Synthetic Environment *)
    (10, [51; 52; 53; 54; 55; 56; 57; 58; 59; 60; 61; 62; 63; 64; 65]); (* Simulation Management with Reliability *)
    (11, [46; 47; 48; 49; 50]);                                  (* Live Entity *)
    (13, [70; 71]) ].                                            (* Information Operations *)
Definition belongs_to_family (ty fam : Z) : Prop := exists l, In (fam, l) dis_families /\ In ty l.

(** PDU types for which the octets written, the size returned by [serialize] and the
    advertised length agree; the others are listed with their deviations in the theorems. *)
Definition exact_types : list Z :=
  [0; 9; 10; 11; 12; 13; 14; 15; 16; 17; 18; 19; 20; 21; 22; 23; 24; 26; 27; 29; 30;
   51; 52; 53; 54; 55; 56; 57; 58; 59; 60; 61; 62; 64; 65; 66; 67; 72].

(** The entity identifier encoded by the six octets at an offset. *)
Definition u16_at (l : list Z) (k : nat) : Z := nth k l 0 * 256 + nth (S k) l 0.

(** [Reads p i l rest]: reading with [p], one after the other, the items [l] from [i] leaves [rest]. *)
Inductive Reads {E A} (p : parser (list E) A) : list E -> list A -> list E -> Prop :=
| Reads_none i : Reads p i [] i
| Reads_more i r a l rest : p i = POk r a -> Reads p r l rest -> Reads p i (a :: l) rest.
(** Octets starting with a Signal PDU (type 26) whose encoding class (the upper two bits of octets 20-21) is 2 or 3, and
    whose announced data (octets 28-29, in bits) is all there but shorter than the 4 or 12 octets the class calls for. *)
Definition short_signal (i : list Z) : Prop :=
  let class := u16_at i 20 / 16384 in let data := u16_at i 28 / 8 in
  nth 2 i 0 = 26 /\ 32 + data <= zlen i /\ (class = 2 /\ data < 4 \/ class = 3 /\ data < 12).

(** Where the originating and receiving entity of an interaction are in the octets of a
    PDU, per type (IEEE 1278.1-2012 clause 7): offsets of the entity identifiers from the start of the PDU. *)
Definition no_receiver_types : list Z := [1; 25; 26; 28; 29; 30; 34; 67].
Definition pair_types : list Z :=
  [2; 3; 4; 5; 6; 7; 8; 11; 12; 13; 14; 15; 16; 17; 18; 19; 20; 21; 22; 35; 36;
   51; 52; 53; 54; 55; 56; 57; 58; 59; 60; 61; 62; 63; 64; 65; 66].
Definition endpoints (ty : Z) : option nat * option nat :=
  if existsb (Z.eqb ty) no_receiver_types then (Some 12%nat, None)
  else if existsb (Z.eqb ty) pair_types then (Some 12%nat, Some 18%nat)
  else if ty =? 24 then (Some 12%nat, Some 20%nat)   (* Designator: designating, designated *)
  else if (ty =? 9) || (ty =? 10) then (Some 18%nat, Some 12%nat) (* Repair Complete/Response: repairing, receiving *)
  else if ty =? 27 then (Some 28%nat, Some 12%nat)   (* Receiver: transmitter, receiver *)
  else (None, None).

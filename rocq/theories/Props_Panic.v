(** * Properties: Panic

    Theorems only: each is closed by the lemma of the same name in L_Panic.v. *)
From Coq Require Import ZArith List Lia Bool String Ascii.
From Verif Require Import Base DisCommon DisLists DisSimman DisLogistics DisWarfare DisEntity DisEmission DisRadio DisIff DisHeader DisPdu DisPacket SpecWire SpecPanic L_Wire L_Panic.
Import ListNotations. Open Scope Z_scope.

(** C12. In a build with overflow checks parsing any octets ends with a result or an error, except that it panics if and only if, after some PDUs have been read, the rest of the
octets starts with one of these: the short Signal of the other theorem; a Transmitter of version 7 in which a variable transmitter parameter record announces fewer than the
six octets of its own header; a Transfer Ownership, Record-R or Set Record-R with a record set whose records, all present, take 65536 octets or more; or an Aggregate State
whose identifiers, all present, take the body beyond 65535 octets. *)
Theorem C12_checked_panics_iff : forall i, bytes i ->
  (parse Checked i = ParsePanic <-> exists l rest, Reads (p_pdu Checked) i l rest /\ overflowing_pdu rest).
Proof. exact C12_checked_panics_iff_pf. Qed.
Print Assumptions C12_checked_panics_iff.

Example C12_checked_example : forall body, bytes body -> zlen body = 65536 ->
  overflowing_pdu ([7; 1; 35; 7] ++ zeros 32 ++ [0; 0; 0; 1] ++ zeros 12 ++ [255; 255; 0; 8] ++ body) /\
  overflowing_pdu (sample_packet 25 (zeros 18 ++ [0; 1] ++ zeros 72 ++ zeros 8)).
Proof. exact checked_example. Qed.

(** C12. For octets that fit one UDP datagram, or anything else below 65536 octets, only the short Signal and the Transmitter record with a length below six remain. *)
Theorem C12_datagram_panics_iff : forall i, bytes i -> zlen i < 65536 ->
  (parse Checked i = ParsePanic <-> exists l rest, Reads (p_pdu Checked) i l rest /\ (short_signal rest \/ short_transmitter rest)).
Proof. exact C12_datagram_panics_iff_pf. Qed.
Print Assumptions C12_datagram_panics_iff.

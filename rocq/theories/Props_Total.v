(** * Properties: Total

    Theorems only: each is closed by the lemma of the same name in L_Total.v. *)
From Coq Require Import ZArith List Lia Bool String Ascii.
From Verif Require Import Base DisCommon DisHeader DisLists DisSimman DisLogistics DisWarfare DisEntity DisEmission DisRadio DisIff DisPdu DisPacket SpecWire SpecSize L_Total.
Import ListNotations. Open Scope Z_scope.

(** C51. In a release build (where integer arithmetic wraps), [serialize] returns for every PDU value whatsoever, except for Entity State and Aggregate State PDUs whose marking is longer than the room for it: either the buffer is too small and nothing is written, or the PDU is appended to what the buffer held and the call reports a size that fits 16 bits. With a marking that is too long, it fails — always, unless the buffer is found too small first. *)
Theorem release_serialize_total : forall (p : Pdu) (buf : list Z) (capacity : Z),
  (exists n, 0 <= n < 65536 /\ capacity < n /\ serialize Wrapping p buf capacity = (buf, InsufficientBufferSize n capacity)) \/
  (Forall text_fits (texts (pdu_body p)) /\
   exists written n, 0 <= n < 65536 /\ serialize Wrapping p buf capacity = (buf ++ written, Written n)) \/
  (~ Forall text_fits (texts (pdu_body p)) /\ snd (serialize Wrapping p buf capacity) = Panicked).
Proof. exact release_serialize_total_pf. Qed.
Print Assumptions release_serialize_total.

(** C51. The release-build guarantee does not depend on the PDU being representable on the wire: a Comment with a datum of 9000 octets, which a debug build may refuse, is written in a release build. *)
Theorem release_serialize_example : forall (x : Comment) (h : PduHeader) (buf : list Z),
  exists written n, 0 <= n < 65536 /\ serialize Wrapping (MkPdu h (BComment x)) buf 65536 = (buf ++ written, Written n).
Proof. exact release_serialize_example_pf. Qed.
Print Assumptions release_serialize_example.

(** C51. A marking of twelve octets does make it fail, in a release and in a debug build. *)
Theorem release_serialize_long_marking_refuted : forall (m : mode) (h : PduHeader) (x : EntityState) (buf : list Z) (capacity : Z),
  zlen (mk_string (EntityState_marking x)) = 12 -> zlen (EntityState_variable_parameters x) < 256 -> 65536 <= capacity ->
  snd (serialize m (MkPdu h (BEntityState x)) buf capacity) = Panicked.
Proof. exact release_serialize_long_marking_refuted_pf. Qed.
Print Assumptions release_serialize_long_marking_refuted.

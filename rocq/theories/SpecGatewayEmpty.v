(** * Vocabulary for what the gateway puts on its DIS network *)
From Coq Require Import ZArith List.
From Verif Require Import Base DisHeader DisLists DisPdu DisPacket DisWarfare.
Import ListNotations. Open Scope Z_scope.

(** A DIS PDU of type 0 (Other) without a body: protocol version 7, exercise, type, family, four octets of time stamp, length 12, status, padding *)
Definition empty_pdu (d : list Z) : Prop := exists exercise family t1 t2 t3 t4 status, d = [7; exercise; 0; family; t1; t2; t3; t4; 0; 12; status; 0].
(** what is in [d], if anything, is PDUs like that *)
Definition only_empty_pdus (d : list Z) : Prop := exists pdus, d = concat pdus /\ Forall empty_pdu pdus.
(** what a DIS program finds in a datagram holds nothing *)
Definition says_nothing (p : Pdu) : Prop := h_type (pdu_header p) = 0 /\ pdu_body p = BOther (MkOther None None []).

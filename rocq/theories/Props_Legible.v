(** * Properties: Legible

    Theorems only: each is closed by the lemma of the same name in L_Legible.v. *)
From Coq Require Import ZArith List Lia Bool String Ascii.
From Verif Require Import Base Utf8 DisCommon DisLists DisHeader DisSimman DisLogistics DisWarfare DisEntity DisEmission DisRadio DisIff DisPdu DisPacket Parsed SpecLayout Layout LayoutP LayoutP2 SpecLegible LayoutC LayoutC2 LegibleG L_Wire L_Relay L_Layout L_Legible.
Import ListNotations. Open Scope Z_scope.

(** C55. Reading somebody else's packet: octets that show, one after the other, the tables of legible PDUs - every field at its place,
anything at all in the padding, the unused bits and the lengths that need not be looked at - are read as exactly those PDUs, in
order and none more, apart from the padding of the header, which is kept. The octets after them may be anything that does not
itself begin with a PDU. *)
Theorem layout_any_padding : forall m ps parts rest k, ps <> [] -> Forall (fun p => wf_Pdu p /\ legible p) ps ->
  Forall2 (fun p os => bytes os /\ shows (L_pdu p) os) ps parts -> p_pdu m rest = PErr k ->
  exists qs, parse m (concat parts ++ rest) = Parsed qs /\ Forall2 same_but_padding ps qs.
Proof. exact layout_any_padding_pf. Qed.
Print Assumptions layout_any_padding.

(** C55. Conversely the PDUs [parse] returns are legible and in range and their pieces of the input show their tables, and nothing that
follows the last piece begins with a PDU: up to the padding of the header, and outside the listed deviations, [parse] returns
the PDUs exactly for the packets described in layout_any_padding. *)
Theorem layout_read_exactly : forall m i ps, bytes i -> parse m i = Parsed ps -> Forall (fun p => size_pdu p <= 65500 /\ reads_body (pdu_body p)) ps ->
  exists parts rest k, i = concat parts ++ rest /\ Forall2 (fun p os => wf_Pdu p /\ legible p /\ bytes os /\ shows (L_pdu p) os) ps parts /\ p_pdu m rest = PErr k.
Proof. exact layout_read_exactly_pf. Qed.
Print Assumptions layout_read_exactly.

(** C55. The table of a legible PDU determines it: octets that show the tables of two legible PDUs show the same PDU (up to the padding
of the header, which is in the table of neither). *)
Theorem layout_unambiguous : forall p q os, bytes os -> wf_Pdu p -> legible p -> shows (L_pdu p) os -> wf_Pdu q -> legible q -> shows (L_pdu q) os ->
  same_but_padding p q.
Proof. exact layout_unambiguous_pf. Qed.
Print Assumptions layout_unambiguous.

Example layout_any_padding_example : wf_Pdu repaired /\ legible repaired /\ bytes repaired_octets /\ shows (L_pdu repaired) repaired_octets /\
  exists q, parse Checked (repaired_octets ++ [7; 1]) = Parsed [q] /\ same_but_padding repaired q /\ h_padding (pdu_header q) = 99 /\ size_pdu q <= 65500 /\ reads_body (pdu_body q).
Proof.
  destruct repaired_shown as (H1 & H2 & H3 & H4). repeat (split; [assumption|]).
  eexists. split; [vm_compute; reflexivity|]. split; [split; vm_compute; reflexivity|]. split; [vm_compute; reflexivity|split; [vm_compute; discriminate|exact I]].
Qed.

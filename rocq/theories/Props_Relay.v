(** * Properties: Relay

    Theorems only: each is closed by the lemma of the same name in L_Relay.v. *)
From Coq Require Import ZArith List Lia Bool String Ascii.
From Verif Require Import Base Utf8 DisCommon DisLists DisHeader DisSimman DisLogistics DisWarfare DisEntity DisEmission DisRadio DisIff DisPdu DisPacket SpecSize SpecRelay Parsed ParsedBodies L_Wire L_Modes L_Relay.
Import ListNotations. Open Scope Z_scope.

(** C54. A received PDU of the relayable kind can be sent on: serializing it into a buffer of 64 KiB succeeds, in debug and in
release builds alike, whichever build received it, and appends exactly the octets of the PDU. *)
Theorem relay_serializes : forall m m' i ps p buf cap, bytes i -> parse m i = Parsed ps -> In p ps -> relayable p -> 65536 <= cap ->
  exists bs n, serialize m' p buf cap = (buf ++ bs, Written n) /\ zlen bs = size_pdu p.
Proof. exact relay_serializes_pf. Qed.
Print Assumptions relay_serializes.

(** C54. What is sent on is read back as what was received: any selection of relayable PDUs of a received packet, in any order,
serialized one after the other, parses to exactly those PDUs. Sender, relay and receiver may be any build. *)
Theorem relay_parses_back : forall m m' m'' i ps qs bss cap, bytes i -> parse m i = Parsed ps ->
  qs <> [] -> Forall (fun q => In q ps /\ relayable q) qs ->
  Forall2 (fun q bs => exists n, serialize m' q [] cap = (bs, Written n)) qs bss -> parse m'' (concat bss) = Parsed qs.
Proof. exact relay_parses_back_pf. Qed.
Print Assumptions relay_parses_back.

Example relay_example : exists p, parse Checked (sample_packet 15 (zeros 20)) = Parsed [p] /\ relayable p /\
  parse Checked (fst (serialize Checked p [] 65536)) = Parsed [p].
Proof.
  eexists. split; [vm_compute; reflexivity|]. split; [|vm_compute; reflexivity].
  unfold relayable, size_conditions, content_conditions; cbn [app]. repeat constructor; vm_compute; discriminate.
Qed.

(** C09. The conditions of the first theorem are not just sufficient: for a PDU of the relayable kind (C54), well-formed or not,
what is serialized is read back as the same PDU exactly if the PDU is well-formed and its values fit the wire. (The
octets written are octets, as their type says.) *)
Theorem C09_exact : forall m p cap bs n, relayable p -> serialize m p [] cap = (bs, Written n) -> bytes bs ->
  (parse m bs = Parsed [p] <-> wf_Pdu p /\ fits_Pdu p).
Proof. exact C09_exact_pf. Qed.
Print Assumptions C09_exact.

Example C09_exact_example : exists p bs n, relayable p /\ serialize Checked p [] 65536 = (bs, Written n) /\ bytes bs /\ zlen bs = 32 /\ parse Checked bs = Parsed [p].
Proof.
  eexists. eexists. eexists. assert (X : exists p, parse Checked (sample_packet 15 (zeros 20)) = Parsed [p] /\ relayable p) by (destruct relay_example as (p & ? & ? & _); eauto).
  destruct X as (p & P & R). vm_compute in P. injection P as <-. split; [exact R|]. split; [vm_compute; reflexivity|]. split; [repeat constructor; lia|]. split; vm_compute; reflexivity.
Qed.

(** C54. Every one of the conditions on the content is needed: without it there is a received packet, whose PDUs meet all the
other conditions, that does not come back (refutation of relaying whatever was received). *)
Theorem relay_needs_each_refuted : forall c, In c content_conditions -> relay_needs c.
Proof. exact relay_needs_each_refuted_pf. Qed.
Print Assumptions relay_needs_each_refuted.

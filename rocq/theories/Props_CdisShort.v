(** * Properties: CdisShort

    Theorems only: each is closed by the lemma of the same name in L_CdisShort.v. *)
From Coq Require Import ZArith List Lia Bool String Ascii.
From Verif Require Import Base CdisBase CdisRecords CdisBodies1 CdisBodies2 CdisIff CdisPdu DisRadio SpecCdis SpecCdisPdu L_CdisBits L_CdisPdu L_CdisShort.
Import ListNotations. Open Scope Z_scope.

(** C28. It fails for every Transmitter PDU without variable transmitter parameters: whatever its other fields are, as long as each fits, and whatever header is in
   front of it, there is no number of bits from which it would be read back: reading it takes at least five bits more than are written. *)
Theorem cdis_transmitter_never : forall m h x, wfits_CPdu (MkCPdu h (CBTransmitter x)) -> CTransmitter_vtps x = [] ->
  forall n, ~ reads_back (w_cpdu m (MkCPdu h (CBTransmitter x))) p_cpdu (MkCPdu h (CBTransmitter x)) n.
Proof. exact cdis_transmitter_never_pf. Qed.
Print Assumptions cdis_transmitter_never.

Example cdis_transmitter_never_example : wfits_CPdu (ex_pdu 25 (CBTransmitter ex_transmitter)) /\ CTransmitter_vtps ex_transmitter = [].
Proof. split; [apply cdis_transmitter_refuted_pf|reflexivity]. Qed.

(** C28. It fails for every Emission PDU with emitter systems, too, as long as they hold fewer than five track or jam entries for every two systems: the writer leaves
   out the number of every system, and nothing the reader could do instead with the bits that follow gives the same systems. *)
Theorem cdis_emission_never : forall m h x, wfits_CPdu (MkCPdu h (CBEmission x)) ->
  2 * total (fun s => total (fun b => zlen (ceb_tracks b)) (cesy_beams s)) (CEmission_systems x) < 5 * zlen (CEmission_systems x) ->
  forall n, ~ reads_back (w_cpdu m (MkCPdu h (CBEmission x))) p_cpdu (MkCPdu h (CBEmission x)) n.
Proof. exact cdis_emission_never_pf. Qed.
Print Assumptions cdis_emission_never.

Example cdis_emission_never_example : wfits_CPdu (ex_pdu 23 (CBEmission ex_emission)) /\ 2 * total (fun s => total (fun b => zlen (ceb_tracks b)) (cesy_beams s)) (CEmission_systems ex_emission) < 5 * zlen (CEmission_systems ex_emission).
Proof. split; [apply cdis_emission_refuted_pf|reflexivity]. Qed.

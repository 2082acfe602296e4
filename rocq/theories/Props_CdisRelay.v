(** * Properties: CdisRelay

    Theorems only: each is closed by the lemma of the same name in L_CdisRelay.v. *)
From Coq Require Import ZArith List Lia Bool String Ascii SpecFloat Reals Lra.
From Verif Require Import Base SpecCdis CdisBase DisCommon DisLists DisEntity DisRadio DisIff CdisRecords CdisBodies1 CdisBodies2 CdisIff CdisPdu SpecCdisPdu SpecCdisRelay
  FloatReal FloatBits Utf8 L_CodecNum CrossFits DisPacket DisSimman L_CdisPdu L_CdisRelay.
Import ListNotations. Open Scope Z_scope.

(** C28. The conditions are exact: a PDU that can be passed on ([passes_on], C60) and has none of the lossy parts is read back as itself, from every place in every
   buffer, exactly if it fits the wire. *)
Theorem cdis_pdu_roundtrip_iff : forall m p, passes_on (cp_body p) -> no_lossy_parts (cp_body p) ->
  ((exists n, reads_back (w_cpdu m p) p_cpdu p n) <-> fits_CPdu p).
Proof. exact cdis_pdu_roundtrip_iff_pf. Qed.
Print Assumptions cdis_pdu_roundtrip_iff.

Example cdis_iff_example : passes_on (CBEntityState (ex_es None)) /\ no_lossy_parts (CBEntityState (ex_es None)) /\ fits_CPdu (ex_pdu 1 (CBEntityState (ex_es None))).
Proof.
  split; [|split; apply cdis_pdu_example]. cbn [passes_on]. split; [|split].
  - unfold opt_passes. intros w E. discriminate E.
  - unfold opt_passes. intros w E. cbn in E. injection E as <-. intros _. cbn. intuition discriminate.
  - constructor.
Qed.

(** C60. Whatever C-DIS octets are read, if each PDU got from them passes [passes_on], the PDUs can be written in either build into any buffer with
   room, what was written is read back, and so on for any number of hops: after all of them there are the same PDUs in the same order, the lossy
   fields aside, and there is always a next hop. *)
Theorem cdis_relay : forall i l, cparse i = CParsed l -> Forall (fun p => passes_on (cp_body p)) l -> forall l', cdis_hops l l' ->
  Forall2 same_but_lossy l' l /\
  forall m buf, bits_taken l' <= zlen buf -> exists buf' l'', serialize_all m l' buf 0 = Some (buf', bits_taken l') /\
    cparse (to_octets (firstn (Z.to_nat (bits_taken l')) buf')) = CParsed l'' /\ cdis_hop l' l''.
Proof. exact cdis_relay_pf. Qed.
Print Assumptions cdis_relay.

(** C60. An altitude that has been read is at least - 2^20 and less than 2^24; so the one thing [altitude_passes] asks of it is to be less than 2^23. *)
Theorem cdis_altitude_read : forall i rest w, p_cwc i = POk rest w -> - 2 ^ 20 <= cwc_alt w < 2 ^ 24.
Proof. exact cdis_altitude_read_pf. Qed.
Print Assumptions cdis_altitude_read.

(** C60. A marking in the five-bit code with the letter Y, which the reader has a code for and the writer has not, comes back as another marking. *)
Theorem cdis_relay_marking_refuted : not_passed_on
  [78; 2; 0; 241; 32; 1; 214; 1; 82; 36; 1; 0; 128; 48; 137; 56; 66; 33; 144; 5; 123; 80; 0; 0; 0; 0; 77; 34; 84; 32].
Proof. exact cdis_relay_marking_refuted_pf. Qed.
Print Assumptions cdis_relay_marking_refuted.

(** C60. An Emission with an emitter system does not come back: the writer leaves out the system number the reader expects. *)
Theorem cdis_relay_emission_refuted : not_passed_on
  [78; 46; 0; 241; 32; 0; 126; 1; 0; 0; 0; 0; 0; 0; 0; 0; 0; 0; 128; 0; 0; 0; 0; 0; 0; 0; 0; 0; 0].
Proof. exact cdis_relay_emission_refuted_pf. Qed.
Print Assumptions cdis_relay_emission_refuted.

(** C60. A Transmitter without variable transmitter parameters does not come back when a PDU follows it: the writer leaves out their number, which the
   reader expects. *)
Theorem cdis_relay_transmitter_refuted : not_passed_on
  [78; 50; 0; 241; 32; 1; 84; 0; 0; 192; 16; 8; 3; 1; 32; 129; 56; 8; 3; 196; 128; 7; 88; 5; 72; 144; 4; 2; 0; 194; 36; 225; 8; 134; 64; 21; 237; 64; 0; 0; 0; 1; 52; 136; 16; 128].
Proof. exact cdis_relay_transmitter_refuted_pf. Qed.
Print Assumptions cdis_relay_transmitter_refuted.

(** C60. An IFF layer 3 under a system type that is neither a transponder nor an interrogator: the reader takes no basic data and fills in a default,
   which the writer writes and the reader then takes for the next PDU. *)
Theorem cdis_relay_iff_layer3_refuted : not_passed_on
  [78; 56; 0; 241; 32; 0; 126; 0; 64; 8; 0; 0; 0; 0; 0; 0; 0; 0; 32; 0; 0; 0; 0; 0; 1; 56; 8; 3; 196; 128; 7; 88; 5; 72; 144; 4; 2; 0; 194; 36; 225; 8; 134; 64; 21; 237; 64; 0; 0; 0; 1; 52; 136; 16; 128].
Proof. exact cdis_relay_iff_layer3_refuted_pf. Qed.
Print Assumptions cdis_relay_iff_layer3_refuted.

Example cdis_relay_example : exists l, cparse
  [78; 4; 0; 241; 32; 2; 224; 0; 128; 4; 2; 0; 192; 16; 8; 3; 0; 64; 32; 12; 1; 0; 128; 48; 0; 0; 0; 4; 158; 26; 136; 0; 2; 105; 19; 132; 34; 25; 0; 0; 192; 1; 0; 80; 24; 7; 78; 2; 0; 241; 32; 1; 214; 1; 82; 36; 1; 0; 128; 48; 137; 56; 66; 33; 144; 5; 123; 80; 0; 0; 0; 0; 77; 34; 4; 64] = CParsed l /\
  map (fun p => ch_type (cp_header p)) l = [2; 1] /\ Forall (fun p => passes_on (cp_body p)) l.
Proof.
  eexists. split; [vm_compute; reflexivity|]. split; [reflexivity|]. repeat constructor; cbn -[Z.pow Z.opp];
  unfold altitude_passes, opt_passes, marking_passes; cbn [cwc_alt]; try (intros ? E; inversion E; cbn; intuition discriminate); try lia; try discriminate.
Qed.

(** C60. A variable parameter read in the compressed form, unless it is of an unknown kind, passes [parameters_pass]: it fits the compressed form again. *)
Theorem cdis_compressed_parameter : forall i rest v, p_cvp (true :: i) = POk rest v -> v <> CVPUnspecified -> parameters_pass [v].
Proof. exact cdis_compressed_parameter_pf. Qed.
Print Assumptions cdis_compressed_parameter.

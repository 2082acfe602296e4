(** * Properties: Gateway

    Theorems only: each is closed by the lemma of the same name in L_Gateway.v. *)
From Coq Require Import ZArith List Lia Bool String Ascii SpecFloat.
From Verif Require Import Base CdisBase DisCommon DisHeader DisLists DisSimman DisLogistics DisWarfare DisEntity DisEmission DisRadio DisIff DisText DisPdu DisPacket
  CdisRecords CdisBodies1 CdisBodies2 CdisIff CdisPdu SpecCdis SpecCdisPdu L_CdisBits L_CdisPdu CdisCodec1 CdisCodec2 CdisCodec3 SpecCodec L_Codec L_CodecDec L_CodecSim Gateway SpecGateway L_Gateway.
Import ListNotations. Open Scope Z_scope.

(** C34. For every datagram of PDUs: the gateway's encoder produces one C-DIS PDU for each PDU of a C-DIS type, in order, with its type and exercise - what the
   C-DIS encoder makes of these PDUs at the times they are handled - and none for the others; each of the others gives one rejection event with its type
   and length, each PDU of a C-DIS type one received and one encoded event, and no PDU is reported as unimplemented. *)
Theorem gateway_encoder_types : forall g o clock k st ps evs cs st', encode_pdus g o clock k st ps = Done evs (cs, st') ->
  Forall2 (fun p c => ch_type (cp_header c) = h_type (pdu_header p) /\ ch_exercise (cp_header c) = h_exercise (pdu_header p)) (filter in_cdis ps) cs /\
  (exists times, length times = length (filter in_cdis ps) /\ run (encode_step g o) st (combine times (filter in_cdis ps)) = Some (cs, st')) /\
  filter is_rejection evs = map (fun p => RejectedUnsupportedDisPdu (h_type (pdu_header p)) (h_length (pdu_header p))) (filter (fun p => negb (in_cdis p)) ps) /\
  filter is_received evs = map (fun p => ReceivedDis (h_type (pdu_header p)) (h_length (pdu_header p))) (filter in_cdis ps) /\
  filter is_encoded evs = map (fun c => EncodedPdu (ch_type (cp_header c)) (octets_for (ch_length (cp_header c)))) cs /\
  filter is_unimplemented evs = [].
Proof. exact gateway_encoder_types_pf. Qed.
Print Assumptions gateway_encoder_types.

(** C34. The encoder fails on a datagram only if the C-DIS encoder fails on a PDU of it: it does not if every Entity State PDU has a marking that can be cut at 11 octets. *)
Theorem gateway_encoder_survives : forall g o clock k st ps,
  Forall (fun p => forall x, pdu_body p = BEntityState x -> exists s, text s (mk_string (EntityState_marking x)) /\ can_cut s) ps ->
  exists evs cs st', encode_pdus g o clock k st ps = Done evs (cs, st').
Proof. exact gateway_encoder_survives_pf. Qed.
Print Assumptions gateway_encoder_survives.

(** C36. What the gateway's encoder emits for the C-DIS PDUs of a datagram: as many octets as their declared lengths fill, holding first the PDUs' own bits, one
   PDU after the other, and then whatever the buffer held before. *)
Theorem gateway_encoder_octets : forall m buf cs evs out buf', zlen buf = cbuffer_bits -> enc_writing m buf cs = Done evs (out, buf') ->
  exists own, own_bits m cs = Some own /\ evs = [SentCDis (octets_for (declared_bits cs))] /\ length out = Z.to_nat (octets_for (declared_bits cs)) /\ zlen buf' = cbuffer_bits /\
    buf' = own ++ skipn (length own) buf /\ to_bits out = firstn (8 * length out) (own ++ skipn (length own) buf).
Proof. exact gateway_encoder_octets_pf. Qed.
Print Assumptions gateway_encoder_octets.

(** C36. So the bits of the PDUs themselves never depend on what was sent before, and nothing does when those bits fill the octets that are sent. (The missing
   part: the rest of the octets, up to 7 bits plus the bits that the PDUs declare too many, is left over from earlier datagrams; see the refutations.) *)
Theorem gateway_encoder_fresh : forall m buf1 buf2 cs evs1 out1 buf1' evs2 out2 buf2' own, zlen buf1 = cbuffer_bits -> zlen buf2 = cbuffer_bits ->
  enc_writing m buf1 cs = Done evs1 (out1, buf1') -> enc_writing m buf2 cs = Done evs2 (out2, buf2') -> own_bits m cs = Some own ->
  evs1 = evs2 /\ length out1 = length out2 /\ firstn (length own) (to_bits out1) = firstn (length own) (to_bits out2) /\
  (8 * zlen out1 <= zlen own -> to_bits out1 = to_bits out2 /\ to_bits out1 = firstn (8 * length out1) own).
Proof. exact gateway_encoder_fresh_pf. Qed.
Print Assumptions gateway_encoder_fresh.

(** C34. For every history of datagrams and every datagram that parses: if all C-DIS PDUs made of it fit their wire fields and the lengths they declare exceed
   the bits they take by at most 50 in all, then a C-DIS receiver that parses the emitted datagram gets exactly these PDUs, in order - the same exercise,
   type and body, but for the parts of a body that do not survive C-DIS (C28). If no PDU is of a C-DIS type, an empty datagram is emitted. *)
Theorem gateway_encoder_delivers : forall m g o e clock bytes ps evs out e', encoder_reachable m g o e -> parse m bytes = Parsed ps -> encode_buffer m g o e (clock, bytes) = Done evs (out, e') ->
  exists times cs, length times = length (filter in_cdis ps) /\ run (encode_step g o) (gw_enc e) (combine times (filter in_cdis ps)) = Some (cs, gw_enc e') /\
    (filter in_cdis ps = [] -> out = []) /\
    (filter in_cdis ps <> [] -> Forall sendable cs -> 0 <= total (fun c => excess_cbody (cp_body c)) cs <= 50 -> exists qs, cparse out = CParsed qs /\ Forall2 arrives qs cs).
Proof. exact gateway_encoder_delivers_pf. Qed.
Print Assumptions gateway_encoder_delivers.

(** C34. And for a datagram of at most five simulation management PDUs (C33) the whole way works, whatever was handled before: what the gateway emits is parsed
   on the C-DIS side into as many PDUs, which the C-DIS decoder, in any state, turns into the same PDUs again, with the same exercise, type and body. *)
Theorem gateway_encoder_simman : forall m g o e clock bytes ps evs out e' dst, encoder_reachable m g o e -> parse m bytes = Parsed ps -> ps <> [] -> Forall simman_pdu ps -> zlen ps <= 5 ->
  encode_buffer m g o e (clock, bytes) = Done evs (out, e') ->
  exists qs ps', cparse out = CParsed qs /\ run (decode_step Wrapping g o) dst qs = Some (ps', dst) /\
    Forall2 (fun p' p => simman_same (pdu_body p') (pdu_body p) /\ h_exercise (pdu_header p') = h_exercise (pdu_header p) /\ h_type (pdu_header p') = h_type (pdu_header p)) ps' ps.
Proof. exact gateway_encoder_simman_pf. Qed.
Print Assumptions gateway_encoder_simman.

Example gateway_encoder_simman_example : forall g o clock, exists e ps evs out e', encoder_reachable Checked g o e /\ gw_buffer e <> gw_buffer encoder_new /\
  parse Checked (stop_octets 0 ++ comment_octets) = Parsed ps /\ zlen ps = 2 /\ Forall simman_pdu ps /\
  encode_buffer Checked g o e (clock, stop_octets 0 ++ comment_octets) = Done evs (out, e').
Proof.
  intros g o clock. destruct (after_stop_run g o clock) as (evs & out & H). exists (after_stop). do 4 eexists.
  split; [eapply reach_next; [apply reach_new|exact H]|]. split; [intros X; apply (f_equal (fun l => firstn 100 l)) in X; vm_compute in X; discriminate|]. split; [vm_compute; reflexivity|]. split; [reflexivity|]. split.
  - constructor; [|constructor; [|constructor]]; unfold simman_pdu; cbn -[Z.lt Z.le];
      unfold wf_StopFreeze, wf_Comment, wf_EntityId, wf_SimulationAddress, wf_ClockTime, datums_narrow, u8, u16, u32, i32, zlen; cbn -[Z.lt Z.le]; repeat lazymatch goal with |- _ /\ _ => split | |- Forall _ [] => constructor end; try reflexivity; lia.
  - enter.
Qed.

Example gateway_encoder_delivers_example : forall g o clock, exists ps evs out e' times cs, parse Checked (other_octets ++ stop_octets 0) = Parsed ps /\ zlen ps = 2 /\
  encode_buffer Checked g o encoder_new (clock, other_octets ++ stop_octets 0) = Done evs (out, e') /\
  run (encode_step g o) enc_state_new (combine times (filter in_cdis ps)) = Some (cs, gw_enc e') /\ zlen cs = 1 /\ Forall sendable cs /\ total (fun c => excess_cbody (cp_body c)) cs = 0.
Proof.
  intros g o clock. do 4 eexists. exists [0]. eexists. split; [vm_compute; reflexivity|]. split; [reflexivity|]. split; [enter|]. split; [vm_compute; reflexivity|].
  split; [reflexivity|]. split; [|reflexivity]. constructor; [|constructor]. unfold sendable. cbn -[Z.lt Z.le Z.pow].
  unfold fits_CStopFreeze, fits_CEntityId, body_matches, u8, ub, sb. cbn -[Z.lt Z.le Z.pow]. repeat lazymatch goal with |- _ /\ _ => split end; try reflexivity; lia.
Qed.

(** C36. What is emitted for a datagram does depend on the datagrams before it: an empty Comment PDU is sent in different octets by a new gateway and by one
   that sent a Stop/Freeze PDU before, with the codecs in the same state. The difference is what the earlier PDU left in the buffer. *)
Theorem gateway_encoder_fresh_refuted : forall g o clock, exists e evs1 out1 e1 evs2 out2 e2, encoder_reachable Checked g o e /\ gw_enc e = gw_enc encoder_new /\
  encode_buffer Checked g o encoder_new (clock, comment_octets) = Done evs1 (out1, e1) /\ encode_buffer Checked g o e (clock, comment_octets) = Done evs2 (out2, e2) /\
  evs1 = evs2 /\ length out1 = length out2 /\ out1 <> out2.
Proof. exact gateway_encoder_fresh_refuted_pf. Qed.
Print Assumptions gateway_encoder_fresh_refuted.

(** C34. The bound is sharp: a new gateway that receives one datagram of six empty Comment PDUs emits a datagram that is read as seven PDUs; the last one, of
   type 0, was never sent. *)
Theorem gateway_encoder_delivers_refuted : forall g o clock, exists ps evs out e' qs, parse Checked (concat (repeat comment_octets 6)) = Parsed ps /\
  map (fun p => h_type (pdu_header p)) ps = [22; 22; 22; 22; 22; 22] /\
  encode_buffer Checked g o encoder_new (clock, concat (repeat comment_octets 6)) = Done evs (out, e') /\
  cparse out = CParsed qs /\ map (fun q => ch_type (cp_header q)) qs = [22; 22; 22; 22; 22; 22; 0].
Proof. exact gateway_encoder_delivers_refuted_pf. Qed.
Print Assumptions gateway_encoder_delivers_refuted.

(** C35. What the gateway's decoder does with the PDUs of a datagram, for every datagram of octets, every state and as long as the send buffer has room for 12
   more octets: each PDU of a C-DIS type is counted as unimplemented and dropped; each other PDU gives an empty DIS PDU of type 0 (12 octets); and the
   decoder's state never changes. It never fails. *)
Theorem gateway_decoder_drops : forall m g o capacity st bytes cs, (forall buf, 12 <= capacity buf) -> cparse bytes = CParsed cs ->
  exists evs out, decode_buffer m g o capacity st bytes = Done evs (out, st) /\
    zlen out = 12 * zlen (filter (fun c => negb (cin_cdis c)) cs) /\
    filter is_cunimplemented evs = map (fun c => UnimplementedDecodedPdu (ch_type (cp_header c)) (octets_for (ch_length (cp_header c)))) (filter cin_cdis cs) /\
    filter is_creceived evs = map (fun c => ReceivedCDis (ch_type (cp_header c)) (octets_for (ch_length (cp_header c)))) (filter (fun c => negb (cin_cdis c)) cs) /\
    filter is_decoded evs = map (fun _ => DecodedPdu 0 12) (filter (fun c => negb (cin_cdis c)) cs).
Proof. exact gateway_decoder_drops_pf. Qed.
Print Assumptions gateway_decoder_drops.

(** C35. So the property fails for every datagram of C-DIS PDUs: nothing of it is forwarded. *)
Theorem gateway_decoder_refuted : forall m g o capacity st bytes cs, (forall buf, 12 <= capacity buf) -> cparse bytes = CParsed cs -> Forall (fun c => cin_cdis c = true) cs ->
  exists evs, decode_buffer m g o capacity st bytes = Done evs ([], st) /\ filter is_decoded evs = [].
Proof. exact gateway_decoder_refuted_pf. Qed.
Print Assumptions gateway_decoder_refuted.

Example gateway_decoder_example : exists cs, cparse [70; 28; 0; 0; 0; 1; 152; 0; 0; 128; 64; 24; 8; 2; 128; 192; 0; 0; 0; 224; 0; 0; 1; 2; 128; 144] = CParsed cs /\ map (fun c => ch_type (cp_header c)) cs = [14] /\ Forall (fun c => cin_cdis c = true) cs.
Proof. eexists. split; [vm_compute; reflexivity|]. split; [reflexivity|]. repeat constructor. Qed.

Example gateway_decoder_foreign_example : exists cs, cparse [64; 0; 0; 0; 0; 0; 0; 0] = CParsed cs /\ map cin_cdis cs = [false].
Proof. eexists. split; [vm_compute; reflexivity|]. reflexivity. Qed.

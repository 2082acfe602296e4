(** * Vocabulary for the gateway's properties *)
From Coq Require Import ZArith List Lia Bool SpecFloat.
From Verif Require Import Base CdisBase DisHeader DisPdu DisPacket CdisRecords CdisPdu SpecCdisPdu CdisCodec1 CdisCodec2 CdisCodec3 SpecCodec Gateway.
Import ListNotations. Open Scope Z_scope.

(** ** Statistics *)
(** the sum of [f] over the events of a history *)
Definition sum_over (f : Event -> Z) (h : list StatInput) : Z := fold_right (fun i a => match i with Ev e => f e + a | Tick => a end) 0 h.
Definition no_tick (h : list StatInput) : Prop := ~ In Tick h.
(** octets and datagrams of each kind of event *)
Definition dis_in (e : Event) : Z := match e with ReceivedBytesDis n => n | _ => 0 end.
Definition dis_ins (e : Event) : Z := match e with ReceivedBytesDis _ => 1 | _ => 0 end.
Definition dis_out (e : Event) : Z := match e with SentDis n => n | _ => 0 end.
Definition dis_outs (e : Event) : Z := match e with SentDis _ => 1 | _ => 0 end.
Definition cdis_in (e : Event) : Z := match e with ReceivedBytesCDis n => n | _ => 0 end.
Definition cdis_ins (e : Event) : Z := match e with ReceivedBytesCDis _ => 1 | _ => 0 end.
Definition cdis_out (e : Event) : Z := match e with SentCDis n => n | _ => 0 end.
Definition cdis_outs (e : Event) : Z := match e with SentCDis _ => 1 | _ => 0 end.
(** the totals of a socket *)
Definition totals_are (s : SocketStats) (inb ins outb outs : Event -> Z) (h : list StatInput) : Prop :=
  bytes_received s = sum_over inb h /\ packets_received s = sum_over ins h /\ bytes_sent s = sum_over outb h /\ packets_sent s = sum_over outs h.
(** its latest aggregates *)
Definition aggregates_are (s : SocketStats) (inb ins outb outs : Event -> Z) (h : list StatInput) : Prop :=
  bytes_received_latest_aggregate s = sum_over inb h /\ packets_received_latest_aggregate s = sum_over ins h /\
  bytes_sent_latest_aggregate s = sum_over outb h /\ packets_sent_latest_aggregate s = sum_over outs h.
(** PDU events: type and size *)
Definition enc_rx (e : Event) : option (Z * Z) := match e with ReceivedDis t n => Some (t, n) | _ => None end.
Definition enc_tx (e : Event) : option (Z * Z) := match e with EncodedPdu t n => Some (t, n) | _ => None end.
Definition dec_rx (e : Event) : option (Z * Z) := match e with ReceivedCDis t n => Some (t, n) | _ => None end.
Definition dec_tx (e : Event) : option (Z * Z) := match e with DecodedPdu t n => Some (t, n) | _ => None end.
Definition enc_rejected (e : Event) : Z := match e with RejectedUnsupportedDisPdu _ _ => 1 | _ => 0 end.
Definition dec_rejected (e : Event) : Z := match e with RejectedUnsupportedCDisPdu _ _ => 1 | _ => 0 end.
Definition enc_unimplemented (e : Event) : Z := match e with UnimplementedEncodedPdu _ _ => 1 | _ => 0 end.
Definition dec_unimplemented (e : Event) : Z := match e with UnimplementedDecodedPdu _ _ => 1 | _ => 0 end.
Definition enc_unimplemented_octets (e : Event) : Z := match e with UnimplementedEncodedPdu _ n => n | _ => 0 end.
Definition dec_unimplemented_octets (e : Event) : Z := match e with UnimplementedDecodedPdu _ n => n | _ => 0 end.
(** how many PDUs of a type, and how many octets; of all types *)
Definition count_type (f : Event -> option (Z * Z)) (ty : Z) (e : Event) : Z := match f e with Some (t, _) => if t =? ty then 1 else 0 | None => 0 end.
Definition octets_type (f : Event -> option (Z * Z)) (ty : Z) (e : Event) : Z := match f e with Some (t, n) => if t =? ty then n else 0 | None => 0 end.
Definition octets_all (f : Event -> option (Z * Z)) (e : Event) : Z := match f e with Some (_, n) => n | None => 0 end.
(** a table of counts holds, for every type that occurred, the number of PDUs and their octets, and nothing for the others *)
Definition counts_are (l : counts) (f : Event -> option (Z * Z)) (h : list StatInput) : Prop := forall ty,
  lookup_count ty l = if sum_over (count_type f ty) h =? 0 then None else Some (sum_over (count_type f ty) h, sum_over (octets_type f ty) h).

(** ** The encoder and the decoder *)
(** the PDU types C-DIS has (SISO-STD-023) *)
Definition cdis_types : list Z := [1; 2; 3; 4; 11; 12; 13; 14; 15; 16; 17; 18; 19; 20; 21; 22; 23; 24; 25; 26; 27; 28].
Definition in_cdis (p : Pdu) : bool := existsb (Z.eqb (h_type (pdu_header p))) cdis_types.
Definition cin_cdis (c : CPdu) : bool := existsb (Z.eqb (ch_type (cp_header c))) cdis_types.
(** the events of a list that satisfy a test *)
Definition is_rejection (e : Event) : bool := match e with RejectedUnsupportedDisPdu _ _ => true | _ => false end.
Definition is_received (e : Event) : bool := match e with ReceivedDis _ _ => true | _ => false end.
Definition is_encoded (e : Event) : bool := match e with EncodedPdu _ _ => true | _ => false end.
Definition is_unimplemented (e : Event) : bool := match e with UnimplementedEncodedPdu _ _ => true | _ => false end.
Definition is_creceived (e : Event) : bool := match e with ReceivedCDis _ _ => true | _ => false end.
Definition is_decoded (e : Event) : bool := match e with DecodedPdu _ _ => true | _ => false end.
Definition is_cunimplemented (e : Event) : bool := match e with UnimplementedDecodedPdu _ _ => true | _ => false end.
(** the bits of the PDUs of a datagram, one after the other; [None] if a PDU cannot be written *)
Fixpoint own_bits (m : mode) (cs : list CPdu) : option (list bool) :=
  match cs with
  | [] => Some []
  | c :: t => match w_cpdu m c, own_bits m t with WOk b _, Some r => Some (b ++ r) | _, _ => None end
  end.
(** [q], read from the wire, is [c] but for the lossy parts of the body and the header fields that are cut to their width *)
Definition arrives (q c : CPdu) : Prop :=
  ch_exercise (cp_header q) = ch_exercise (cp_header c) /\ ch_type (cp_header q) = ch_type (cp_header c) /\ blank_lossy (cp_body q) = blank_lossy (cp_body c).
(** the body fits the wire and is of the type the header says *)
Definition sendable (c : CPdu) : Prop := u8 (ch_exercise (cp_header c)) /\ u8 (ch_type (cp_header c)) /\ body_matches (ch_type (cp_header c)) (cp_body c) /\ fits_cbody (cp_body c).
(** the states of the encoder task: it starts with a new encoder and handles datagram after datagram, each with the times at which its PDUs are handled *)
Inductive encoder_reachable (m : mode) (g : Geo) (o : Options) : Encoder -> Prop :=
| reach_new : encoder_reachable m g o encoder_new
| reach_next e i evs out e' : encoder_reachable m g o e -> encode_buffer m g o e i = Done evs (out, e') -> encoder_reachable m g o e'.
(** a simulation management PDU that C-DIS can carry (C33) *)
Definition simman_pdu (p : Pdu) : Prop :=
  wf_body (pdu_body p) /\ simman_narrow (pdu_body p) /\ u8 (h_exercise (pdu_header p)) /\ h_type (pdu_header p) = body_type (pdu_body p).

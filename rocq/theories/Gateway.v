(** * The C-DIS gateway: cdis-gateway/src/{main,codec,stats}.rs

    The encoder and decoder tasks on octets, the statistics, and the tasks with the channels between them. Not modelled: the sockets themselves, the
    configuration file, the web site, logging. *)
From Coq Require Import ZArith List Lia Bool SpecFloat.
From Verif Require Import Base CdisBase DisHeader DisPdu DisPacket CdisRecords CdisPdu SpecCdisPdu CdisCodec1 CdisCodec2 CdisCodec3.
Import ListNotations. Open Scope Z_scope.

(** ** Events: main.rs:92-107. A PDU type is its number. *)
Inductive Event :=
| ReceivedBytesDis (n : Z) | ReceivedBytesCDis (n : Z)
| ReceivedDis (ty size : Z) | ReceivedCDis (ty size : Z)
| EncodedPdu (ty size : Z) | DecodedPdu (ty size : Z)
| RejectedUnsupportedDisPdu (ty size : Z) | RejectedUnsupportedCDisPdu (ty size : Z)
| UnimplementedEncodedPdu (ty size : Z) | UnimplementedDecodedPdu (ty size : Z)
| SentDis (n : Z) | SentCDis (n : Z).

(** What a task does for one datagram: the events it sends, one after the other, and then either a result or a panic. *)
Inductive trace (A : Type) := Done (evs : list Event) (a : A) | Died (evs : list Event).
Arguments Done {A}. Arguments Died {A}.
Definition tbind {A B} (t : trace A) (f : A -> trace B) : trace B :=
  match t with
  | Died e => Died e
  | Done e a => match f a with Done e' b => Done (e ++ e') b | Died e' => Died (e ++ e') end
  end.
Definition tret {A} (a : A) : trace A := Done [] a.
Definition emit (e : Event) : trace unit := Done [e] tt.
Definition tdie {A} : trace A := Died [].
Notation "x <<- t ;; f" := (tbind t (fun x => f)) (at level 61, t at next level, right associativity).

(** number of octets for a number of bits: usize::div_ceil / u16::div_ceil *)
Definition octets_for (bits : Z) : Z := (bits + 7) / 8.

(** ** Encoder: codec.rs:13-93 *)
(* 12-18; the options are fixed when the task starts, 21-38. [writing.rs:11-14]: the buffer starts as zeroes and is never cleared *)
Record Encoder := MkEncoder { gw_buffer : list bool; gw_enc : EncState }.
Definition encoder_new : Encoder := MkEncoder (repeat false (Z.to_nat cbuffer_bits)) enc_state_new.

(* Encoder::encode_pdus, 71-93: two filters, the encoding, and events on the way; the adaptors are lazy, so the PDUs pass one by one.
   [clock k] is the time at which the k-th PDU of the datagram is encoded. *)
Fixpoint encode_pdus (g : Geo) (o : Options) (clock : nat -> Z) (k : nat) (st : EncState) (ps : list Pdu) : trace (list CPdu * EncState) :=
  match ps with
  | [] => tret ([], st)
  | p :: t =>
      let ty := h_type (pdu_header p) in let len := h_length (pdu_header p) in
      if negb (is_supported ty) then (_ <<- emit (RejectedUnsupportedDisPdu ty len);; encode_pdus g o clock (S k) st t)
      else if negb (is_implemented ty) then (_ <<- emit (UnimplementedEncodedPdu ty len);; encode_pdus g o clock (S k) st t)
      else (_ <<- emit (ReceivedDis ty len);;
            match encode g o (clock k) st p with
            | None => tdie
            | Some (c, _, st') =>
                (_ <<- emit (EncodedPdu (ch_type (cp_header c)) (octets_for (ch_length (cp_header c))));;
                 r <<- encode_pdus g o clock (S k) st' t;; tret (c :: fst r, snd r))
            end)
  end.

(* Encoder::writing, 44-55: the PDUs are written one after the other from the start of the buffer; as many octets are taken from the buffer
   as the declared lengths add up to (a slice beyond the buffer panics) *)
Definition declared_bits (cs : list CPdu) : Z := fold_left (fun n c => n + cpdu_length c) cs 0.
Definition enc_writing (m : mode) (buf : list bool) (cs : list CPdu) : trace (list Z * list bool) :=
  match serialize_all m cs buf 0 with
  | None => tdie
  | Some (buf', _) =>
      let n := octets_for (declared_bits cs) in
      if 8 * n <=? zlen buf' then (_ <<- emit (SentCDis n);; tret (to_octets (firstn (Z.to_nat (8 * n)) buf'), buf')) else tdie
  end.

(* Encoder::encode_buffer, 57-69: a datagram that cannot be parsed counts as one without PDUs *)
Definition encode_buffer (m : mode) (g : Geo) (o : Options) (e : Encoder) (i : (nat -> Z) * list Z) : trace (list Z * Encoder) :=
  let bytes := snd i in
  (_ <<- emit (ReceivedBytesDis (zlen bytes));;
   r <<- match parse m bytes with
         | Parsed ps => encode_pdus g o (fst i) O (gw_enc e) ps
         | ParseError => tret ([], gw_enc e)
         | ParsePanic => tdie
         end;;
   w <<- enc_writing m (gw_buffer e) (fst r);;
   tret (fst w, MkEncoder (snd w) (snd r))).

(** ** Decoder: codec.rs:95-188 *)
(* Decoder::decode_pdus, 158-187: the filter lets the types pass that are not implemented *)
Fixpoint decode_pdus (m : mode) (g : Geo) (o : Options) (st : DecState) (cs : list CPdu) : trace (list Pdu * DecState) :=
  match cs with
  | [] => tret ([], st)
  | c :: t =>
      let ty := ch_type (cp_header c) in let len := octets_for (ch_length (cp_header c)) in
      if is_implemented ty then (_ <<- emit (UnimplementedDecodedPdu ty len);; decode_pdus m g o st t)
      else (_ <<- emit (ReceivedCDis ty len);;
            match decode m g o st c with
            | WPanic => tdie
            | WOk _ (p, _, st') =>
                (_ <<- emit (DecodedPdu (h_type (pdu_header p)) (h_length (pdu_header p)));;
                 r <<- decode_pdus m g o st' t;; tret (p :: fst r, snd r))
            end)
  end.
(* Decoder::writing, 126-141: a fresh buffer; an error from serialize panics; the number of octets is summed as usize from what serialize returns.
   [capacity buf] is the capacity of the BytesMut when it holds [buf]; it depends on the allocator. *)
Fixpoint dec_writing_all (m : mode) (capacity : list Z -> Z) (buf : list Z) (n : Z) (ps : list Pdu) : trace (list Z * Z) :=
  match ps with
  | [] => tret (buf, n)
  | p :: t => match serialize m p buf (capacity buf) with
              | (buf', Written k) => dec_writing_all m capacity buf' (n + k) t
              | _ => tdie
              end
  end.
Definition dec_writing (m : mode) (capacity : list Z -> Z) (ps : list Pdu) : trace (list Z) :=
  (r <<- dec_writing_all m capacity [] 0 ps;; _ <<- emit (SentDis (snd r));; tret (fst r)).
(* Decoder::decode_buffer, 143-156 *)
Definition decode_buffer (m : mode) (g : Geo) (o : Options) (capacity : list Z -> Z) (st : DecState) (bytes : list Z) : trace (list Z * DecState) :=
  (_ <<- emit (ReceivedBytesCDis (zlen bytes));;
   r <<- match cparse bytes with
         | CParsed cs => decode_pdus m g o st cs
         | CParseError => tret ([], st)
         | CParsePanic => tdie
         end;;
   w <<- dec_writing m capacity (fst r);;
   tret (w, snd r)).

(** ** Statistics: stats.rs. Simplification: the u64 counters do not overflow. *)
(* 15-59 *)
Record SocketStats := MkSocketStats {
  bytes_sent : Z; bytes_received : Z; packets_sent : Z; packets_received : Z;
  bytes_received_interval : Z; packets_received_interval : Z; bytes_sent_interval : Z; packets_sent_interval : Z;
  bytes_received_latest_aggregate : Z; packets_received_latest_aggregate : Z; bytes_sent_latest_aggregate : Z; packets_sent_latest_aggregate : Z }.
Definition socket_zero : SocketStats := MkSocketStats 0 0 0 0 0 0 0 0 0 0 0 0.
Definition sock_receive (s : SocketStats) (b p : Z) : SocketStats :=
  MkSocketStats (bytes_sent s) (bytes_received s + b) (packets_sent s) (packets_received s + p)
    (bytes_received_interval s + b) (packets_received_interval s + p) (bytes_sent_interval s) (packets_sent_interval s)
    (bytes_received_latest_aggregate s) (packets_received_latest_aggregate s) (bytes_sent_latest_aggregate s) (packets_sent_latest_aggregate s).
Definition sock_sent (s : SocketStats) (b p : Z) : SocketStats :=
  MkSocketStats (bytes_sent s + b) (bytes_received s) (packets_sent s + p) (packets_received s)
    (bytes_received_interval s) (packets_received_interval s) (bytes_sent_interval s + b) (packets_sent_interval s + p)
    (bytes_received_latest_aggregate s) (packets_received_latest_aggregate s) (bytes_sent_latest_aggregate s) (packets_sent_latest_aggregate s).
Definition sock_aggregate (s : SocketStats) : SocketStats :=
  MkSocketStats (bytes_sent s) (bytes_received s) (packets_sent s) (packets_received s) 0 0 0 0
    (bytes_received_interval s) (packets_received_interval s) (bytes_sent_interval s) (packets_sent_interval s).
(* 61-82: a HashMap from PDU type to (count, octets) is an association list without duplicate keys; the compression rate is an f64 *)
Definition counts := list (Z * (Z * Z)).
Fixpoint lookup_count (ty : Z) (l : counts) : option (Z * Z) :=
  match l with [] => None | (t, v) :: r => if t =? ty then Some v else lookup_count ty r end.
Fixpoint bump (ty size : Z) (l : counts) : counts :=
  match l with
  | [] => [(ty, (1, size))]
  | (t, (n, b)) :: r => if t =? ty then (t, (n + 1, b + size)) :: r else (t, (n, b)) :: bump ty size r
  end.
Definition count_bytes (l : counts) : Z := fold_right (fun e a => snd (snd e) + a) 0 l.
Record CodecStats := MkCodecStats { received_count : counts; codec_count : counts; rejected_count : Z; unimplemented_count : Z; unimplemented_bytes : Z; compression_rate : spec_float }.
Definition codec_zero : CodecStats := MkCodecStats [] [] 0 0 0 (S754_zero false).
(* u64 as f64, rounded to nearest; f64 arithmetic *)
Definition f64_of (n : Z) : spec_float := binary_normalize 53 1024 n 0 false.
Definition f64_ratio_percent (a b : Z) : spec_float := SFmul 53 1024 (SFdiv 53 1024 (f64_of a) (f64_of b)) (f64_of 100).
(* f64::is_normal holds for the f64 of an integer exactly when it is not zero *)
Definition codec_aggregate (s : CodecStats) : CodecStats :=
  MkCodecStats (received_count s) (codec_count s) (rejected_count s) (unimplemented_count s) (unimplemented_bytes s)
    (if count_bytes (received_count s) =? 0 then compression_rate s else f64_ratio_percent (count_bytes (codec_count s)) (count_bytes (received_count s))).
Definition codec_received (s : CodecStats) (ty size : Z) := MkCodecStats (bump ty size (received_count s)) (codec_count s) (rejected_count s) (unimplemented_count s) (unimplemented_bytes s) (compression_rate s).
Definition codec_coded (s : CodecStats) (ty size : Z) := MkCodecStats (received_count s) (bump ty size (codec_count s)) (rejected_count s) (unimplemented_count s) (unimplemented_bytes s) (compression_rate s).
Definition codec_rejected (s : CodecStats) := MkCodecStats (received_count s) (codec_count s) (rejected_count s + 1) (unimplemented_count s) (unimplemented_bytes s) (compression_rate s).
Definition codec_unimplemented (s : CodecStats) (size : Z) := MkCodecStats (received_count s) (codec_count s) (rejected_count s) (unimplemented_count s + 1) (unimplemented_bytes s + size) (compression_rate s).
(* 84-156 *)
Record GatewayStats := MkGatewayStats { gs_dis : SocketStats; gs_cdis : SocketStats; gs_encoder : CodecStats; gs_decoder : CodecStats }.
Definition stats_zero : GatewayStats := MkGatewayStats socket_zero socket_zero codec_zero codec_zero.
Definition handle_event (s : GatewayStats) (e : Event) : GatewayStats :=
  match e with
  | ReceivedBytesDis n => MkGatewayStats (sock_receive (gs_dis s) n 1) (gs_cdis s) (gs_encoder s) (gs_decoder s)
  | ReceivedBytesCDis n => MkGatewayStats (gs_dis s) (sock_receive (gs_cdis s) n 1) (gs_encoder s) (gs_decoder s)
  | ReceivedDis ty n => MkGatewayStats (gs_dis s) (gs_cdis s) (codec_received (gs_encoder s) ty n) (gs_decoder s)
  | ReceivedCDis ty n => MkGatewayStats (gs_dis s) (gs_cdis s) (gs_encoder s) (codec_received (gs_decoder s) ty n)
  | EncodedPdu ty n => MkGatewayStats (gs_dis s) (gs_cdis s) (codec_coded (gs_encoder s) ty n) (gs_decoder s)
  | DecodedPdu ty n => MkGatewayStats (gs_dis s) (gs_cdis s) (gs_encoder s) (codec_coded (gs_decoder s) ty n)
  | RejectedUnsupportedDisPdu _ _ => MkGatewayStats (gs_dis s) (gs_cdis s) (codec_rejected (gs_encoder s)) (gs_decoder s)
  | RejectedUnsupportedCDisPdu _ _ => MkGatewayStats (gs_dis s) (gs_cdis s) (gs_encoder s) (codec_rejected (gs_decoder s))
  | UnimplementedEncodedPdu _ n => MkGatewayStats (gs_dis s) (gs_cdis s) (codec_unimplemented (gs_encoder s) n) (gs_decoder s)
  | UnimplementedDecodedPdu _ n => MkGatewayStats (gs_dis s) (gs_cdis s) (gs_encoder s) (codec_unimplemented (gs_decoder s) n)
  | SentDis n => MkGatewayStats (sock_sent (gs_dis s) n 1) (gs_cdis s) (gs_encoder s) (gs_decoder s)
  | SentCDis n => MkGatewayStats (gs_dis s) (sock_sent (gs_cdis s) n 1) (gs_encoder s) (gs_decoder s)
  end.
(* run_stats, 158-198: the aggregate timer *)
Definition aggregate_all (s : GatewayStats) : GatewayStats :=
  MkGatewayStats (sock_aggregate (gs_dis s)) (sock_aggregate (gs_cdis s)) (codec_aggregate (gs_encoder s)) (codec_aggregate (gs_decoder s)).
(** what the statistics task sees: events and ticks of the aggregate timer. (The emit timer only copies the counters.) *)
Inductive StatInput := Ev (e : Event) | Tick.
Definition stat_step (s : GatewayStats) (i : StatInput) : GatewayStats := match i with Ev e => handle_event s e | Tick => aggregate_all s end.
Definition stats_after (h : list StatInput) : GatewayStats := fold_left stat_step h stats_zero.

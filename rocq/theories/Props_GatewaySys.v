(** * Properties: GatewaySys

    Theorems only: each is closed by the lemma of the same name in L_GatewaySys.v. *)
From Coq Require Import ZArith List Lia Bool String Ascii.
From Verif Require Import Base CdisBase DisCommon DisHeader DisWarfare DisPdu DisPacket CdisRecords CdisBodies1 CdisBodies2 CdisIff CdisPdu SpecCdisPdu L_CdisPdu CdisCodec1 CdisCodec2 CdisCodec3 SpecCodec L_CodecDec Gateway SpecGateway L_Stats L_Gateway GatewaySys SpecGatewaySys L_GatewaySys.
Import ListNotations. Open Scope Z_scope.

(** C43. Whatever the schedule, and whether or not tasks stopped or panicked: in each flow the datagrams the codec handled are the first ones that were read from
   the socket, in order, none lost or twice, at most 21 still waiting; and the datagrams put on the other socket are, in order, none lost or twice, the
   first ones of what the codec by itself makes of those it handled - all of them but for the one at which it was interrupted - with at most 21 of them
   waiting. *)
Theorem gateway_order : forall m g o capacity s, reachable m g o capacity s ->
  (exists waiting done last outs e late, f_seen (s_enc s) = map snd (done ++ last) ++ waiting /\ zlen waiting <= 21 /\ zlen last <= 1 /\
    encoder_alone m g o done = Some (outs, e) /\ outs = f_sent (s_enc s) ++ late /\ zlen late <= 21) /\
  (exists waiting done last outs st late, f_seen (s_dec s) = map snd (done ++ last) ++ waiting /\ zlen waiting <= 21 /\ zlen last <= 1 /\
    decoder_alone m g o capacity done = Some (outs, st) /\ outs = f_sent (s_dec s) ++ late /\ zlen late <= 21).
Proof. exact gateway_order_pf. Qed.
Print Assumptions gateway_order.

(** C43. In particular, whenever nothing is under way, everything that was read has been handled and everything the codecs made of it has been sent. *)
Theorem gateway_order_at_rest : forall m g o capacity s, reachable m g o capacity s -> at_rest s ->
  (exists times e, length times = length (f_seen (s_enc s)) /\ encoder_alone m g o (combine times (f_seen (s_enc s))) = Some (f_sent (s_enc s), e)) /\
  (exists st, decoder_alone m g o capacity (map (pair tt) (f_seen (s_dec s))) = Some (f_sent (s_dec s), st)).
Proof. exact gateway_order_at_rest_pf. Qed.
Print Assumptions gateway_order_at_rest.

(** C44. Whatever the schedule, the statistics are those of a sequence of events that is, but for at most 50 events still queued, exactly what the codecs have sent, in
   the order in which they sent it: no event is lost, counted twice or counted out of order. *)
Theorem gateway_events : forall m g o capacity s, reachable m g o capacity s ->
  s_stats s = stats_after (s_history s) /\ exists queued, s_emitted s = flat_map (fun i => match i with Ev e => [e] | Tick => [] end) (s_history s) ++ queued /\ zlen queued <= 50.
Proof. exact gateway_events_pf. Qed.
Print Assumptions gateway_events.

(** C44. Whenever nothing is under way, the totals shown for the two sockets are the numbers of datagrams and of octets that were read from them and written to
   them. (The send buffer of the decoder has room for 12 octets at least.) *)
Theorem gateway_statistics : forall m g o capacity s, (forall buf, 12 <= capacity buf) -> reachable m g o capacity s -> at_rest s ->
  (bytes_received (gs_dis (s_stats s)) = octets (f_seen (s_enc s)) /\ packets_received (gs_dis (s_stats s)) = zlen (f_seen (s_enc s)) /\
   bytes_sent (gs_cdis (s_stats s)) = octets (f_sent (s_enc s)) /\ packets_sent (gs_cdis (s_stats s)) = zlen (f_sent (s_enc s))) /\
  (bytes_received (gs_cdis (s_stats s)) = octets (f_seen (s_dec s)) /\ packets_received (gs_cdis (s_stats s)) = zlen (f_seen (s_dec s)) /\
   bytes_sent (gs_dis (s_stats s)) = octets (f_sent (s_dec s)) /\ packets_sent (gs_dis (s_stats s)) = zlen (f_sent (s_dec s))).
Proof. exact gateway_statistics_pf. Qed.
Print Assumptions gateway_statistics.

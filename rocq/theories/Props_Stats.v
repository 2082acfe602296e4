(** * Properties: Stats

    Theorems only: each is closed by the lemma of the same name in L_Stats.v. *)
From Coq Require Import ZArith List Lia Bool String Ascii SpecFloat.
From Verif Require Import Base CdisBase DisHeader DisPdu DisPacket CdisRecords CdisPdu CdisCodec3 Gateway SpecGateway L_Stats.
Import ListNotations. Open Scope Z_scope.

(** C37. After any history of events and ticks the octet and datagram counters of both sockets are the sums over the events of the history. *)
Theorem gateway_totals : forall h, totals_are (gs_dis (stats_after h)) dis_in dis_ins dis_out dis_outs h /\ totals_are (gs_cdis (stats_after h)) cdis_in cdis_ins cdis_out cdis_outs h.
Proof. exact gateway_totals_pf. Qed.
Print Assumptions gateway_totals.

(** C37. ... and so are the number of PDUs and of octets per PDU type, received and translated, and the numbers of rejected and of unimplemented PDUs, of both codecs. *)
Theorem gateway_counts : forall h, let s := stats_after h in
  counts_are (received_count (gs_encoder s)) enc_rx h /\ counts_are (codec_count (gs_encoder s)) enc_tx h /\
  counts_are (received_count (gs_decoder s)) dec_rx h /\ counts_are (codec_count (gs_decoder s)) dec_tx h /\
  rejected_count (gs_encoder s) = sum_over enc_rejected h /\ rejected_count (gs_decoder s) = sum_over dec_rejected h /\
  unimplemented_count (gs_encoder s) = sum_over enc_unimplemented h /\ unimplemented_count (gs_decoder s) = sum_over dec_unimplemented h /\
  unimplemented_bytes (gs_encoder s) = sum_over enc_unimplemented_octets h /\ unimplemented_bytes (gs_decoder s) = sum_over dec_unimplemented_octets h.
Proof. exact gateway_counts_pf. Qed.
Print Assumptions gateway_counts.

(** C37. The latest aggregates are the sums over the events between the last two ticks, or before the first, whatever came before and whatever events came after. *)
Theorem gateway_aggregates : forall before interval after, before = [] \/ (exists h, before = h ++ [Tick]) -> no_tick interval -> no_tick after ->
  let s := stats_after (before ++ interval ++ Tick :: after) in
  aggregates_are (gs_dis s) dis_in dis_ins dis_out dis_outs interval /\ aggregates_are (gs_cdis s) cdis_in cdis_ins cdis_out cdis_outs interval.
Proof. exact gateway_aggregates_pf. Qed.
Print Assumptions gateway_aggregates.

(** C37. Before the first tick they are zero. *)
Theorem gateway_aggregates_initial : forall h, no_tick h -> let s := stats_after h in
  aggregates_are (gs_dis s) dis_in dis_ins dis_out dis_outs [] /\ aggregates_are (gs_cdis s) cdis_in cdis_ins cdis_out cdis_outs [].
Proof. exact gateway_aggregates_initial_pf. Qed.
Print Assumptions gateway_aggregates_initial.

(** C37. The compression rate shown after a tick is the ratio, in percent, of all octets translated to all octets received up to that tick; it stays as it was when nothing was received. *)
Theorem gateway_compression : forall before after, no_tick after -> let s0 := stats_after before in let s := stats_after (before ++ Tick :: after) in
  compression_rate (gs_encoder s) = (if sum_over (octets_all enc_rx) before =? 0 then compression_rate (gs_encoder s0)
    else f64_ratio_percent (sum_over (octets_all enc_tx) before) (sum_over (octets_all enc_rx) before)) /\
  compression_rate (gs_decoder s) = (if sum_over (octets_all dec_rx) before =? 0 then compression_rate (gs_decoder s0)
    else f64_ratio_percent (sum_over (octets_all dec_tx) before) (sum_over (octets_all dec_rx) before)).
Proof. exact gateway_compression_pf. Qed.
Print Assumptions gateway_compression.

Example gateway_stats_example : let h1 := [Ev (ReceivedBytesDis 144); Ev (ReceivedDis 1 144); Ev (EncodedPdu 1 40); Ev (SentCDis 40)] in
  let h2 := [Ev (ReceivedBytesDis 160); Ev (ReceivedDis 1 160); Ev (EncodedPdu 1 36); Ev (SentCDis 36); Ev (ReceivedBytesDis 20); Ev (RejectedUnsupportedDisPdu 42 20); Ev (SentCDis 0)] in
  no_tick h1 /\ no_tick h2 /\ let s := stats_after ((h1 ++ [Tick]) ++ h2 ++ Tick :: []) in
  bytes_received (gs_dis s) = 324 /\ packets_received (gs_dis s) = 3 /\ bytes_received_latest_aggregate (gs_dis s) = 180 /\ bytes_sent_latest_aggregate (gs_cdis s) = 36 /\
  lookup_count 1 (received_count (gs_encoder s)) = Some (2, 304) /\ lookup_count 2 (received_count (gs_encoder s)) = None /\ rejected_count (gs_encoder s) = 1 /\
  compression_rate (gs_encoder s) = S754_finite false 7036874417766400 (-48).
Proof. cbv zeta. unfold no_tick. split; [intros H; repeat (destruct H as [H|H]; [discriminate H|]); exact H|]. split; [intros H; repeat (destruct H as [H|H]; [discriminate H|]); exact H|]. vm_compute. repeat split. Qed.

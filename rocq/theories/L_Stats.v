(** * C37: the gateway's statistics *)
From Coq Require Import ZArith List Lia Bool SpecFloat.
From Verif Require Import Base CdisBase DisHeader DisPdu DisPacket CdisRecords CdisPdu CdisCodec3 Gateway SpecGateway.
Import ListNotations. Open Scope Z_scope.

Lemma sum_over_app f a b : sum_over f (a ++ b) = sum_over f a + sum_over f b.
Proof. induction a as [|[e|] a IH]; cbn [app sum_over fold_right]; fold (sum_over f); [reflexivity| |exact IH]. change (fold_right _ 0 (a ++ b)) with (sum_over f (a ++ b)). rewrite IH. change (fold_right _ 0 a) with (sum_over f a). lia. Qed.
Lemma after_app a b : stats_after (a ++ b) = fold_left stat_step b (stats_after a).
Proof. apply fold_left_app. Qed.
Lemma after_snoc h i : stats_after (h ++ [i]) = stat_step (stats_after h) i.
Proof. apply after_app. Qed.
Lemma sum_snoc f h i : sum_over f (h ++ [i]) = sum_over f h + match i with Ev e => f e | Tick => 0 end.
Proof. rewrite sum_over_app. destruct i; cbn; lia. Qed.
Lemma stats_totals_pf : forall h, totals_are (gs_dis (stats_after h)) dis_in dis_ins dis_out dis_outs h /\ totals_are (gs_cdis (stats_after h)) cdis_in cdis_ins cdis_out cdis_outs h.
Proof.
  intros h. induction h as [|i h IH] using rev_ind; [repeat split|]. rewrite after_snoc. unfold totals_are in *. rewrite !sum_snoc.
  destruct IH as [(A1 & A2 & A3 & A4) (B1 & B2 & B3 & B4)]. destruct i as [e|]; [destruct e|]; cbn; lia.
Qed.
Lemma lookup_bump ty t n l : lookup_count ty (bump t n l) = if t =? ty then Some (match lookup_count ty l with Some (c, b) => (c + 1, b + n) | None => (1, n) end) else lookup_count ty l.
Proof.
  induction l as [|[k [c b]] l IH]; cbn [bump lookup_count]; [destruct (t =? ty); reflexivity|].
  destruct (Z.eqb_spec k t) as [->|N]; cbn [lookup_count].
  - destruct (Z.eqb_spec t ty); reflexivity.
  - destruct (Z.eqb_spec k ty) as [->|M]; [|rewrite IH; reflexivity]. destruct (Z.eqb_spec t ty); [congruence|reflexivity].
Qed.
Lemma sum_nonneg f h : (forall e, 0 <= f e) -> 0 <= sum_over f h.
Proof. intros H. induction h as [|[e|] h IH]; cbn; [lia| |exact IH]. change (fold_right _ 0 h) with (sum_over f h). specialize (H e). lia. Qed.
Lemma count_nonneg f ty h : 0 <= sum_over (count_type f ty) h.
Proof. apply sum_nonneg. intros e. unfold count_type. destruct (f e) as [[t n]|]; [destruct (t =? ty)|]; lia. Qed.
Lemma counts_same l f h i : counts_are l f h -> match i with Ev e => f e = None | Tick => True end -> counts_are l f (h ++ [i]).
Proof. intros H N ty. rewrite !sum_snoc, (H ty). destruct i as [e|]; [|now rewrite !Z.add_0_r]. assert (count_type f ty e = 0) as -> by (unfold count_type; now rewrite N). assert (octets_type f ty e = 0) as -> by (unfold octets_type; now rewrite N). rewrite !Z.add_0_r. reflexivity. Qed.
Lemma sum_octets_zero f ty h : sum_over (count_type f ty) h = 0 -> sum_over (octets_type f ty) h = 0.
Proof.
  induction h as [|[e|] h IH]; cbn; [reflexivity| |exact IH]. change (fold_right _ 0 h) with (sum_over (count_type f ty) h) at 1. change (fold_right _ 0 h) with (sum_over (octets_type f ty) h).
  pose proof (count_nonneg f ty h) as C. unfold count_type at 1, octets_type at 1. destruct (f e) as [[t n]|]; [destruct (t =? ty)|]; intros X; try lia; rewrite IH; lia.
Qed.
Lemma counts_bump l f h e t n : counts_are l f h -> f e = Some (t, n) -> counts_are (bump t n l) f (h ++ [Ev e]).
Proof.
  intros H N ty. rewrite lookup_bump, !sum_snoc, (H ty). pose proof (count_nonneg f ty h) as C. pose proof (sum_octets_zero f ty h) as Z0.
  assert (count_type f ty e = if t =? ty then 1 else 0) as -> by (unfold count_type; now rewrite N). assert (octets_type f ty e = if t =? ty then n else 0) as -> by (unfold octets_type; now rewrite N).
  destruct (t =? ty); [|now rewrite !Z.add_0_r].
  destruct (Z.eqb_spec (sum_over (count_type f ty) h) 0) as [E|E].
  - rewrite E, (Z0 E). destruct (Z.eqb_spec (0 + 1) 0); [lia|]. f_equal; f_equal; lia.
  - destruct (Z.eqb_spec (sum_over (count_type f ty) h + 1) 0); [lia|]. reflexivity.
Qed.
Lemma stats_counts_pf : forall h, let s := stats_after h in
  counts_are (received_count (gs_encoder s)) enc_rx h /\ counts_are (codec_count (gs_encoder s)) enc_tx h /\
  counts_are (received_count (gs_decoder s)) dec_rx h /\ counts_are (codec_count (gs_decoder s)) dec_tx h /\
  rejected_count (gs_encoder s) = sum_over enc_rejected h /\ rejected_count (gs_decoder s) = sum_over dec_rejected h /\
  unimplemented_count (gs_encoder s) = sum_over enc_unimplemented h /\ unimplemented_count (gs_decoder s) = sum_over dec_unimplemented h /\
  unimplemented_bytes (gs_encoder s) = sum_over enc_unimplemented_octets h /\ unimplemented_bytes (gs_decoder s) = sum_over dec_unimplemented_octets h.
Proof.
  intros h. cbv zeta. induction h as [|i h IH] using rev_ind; [repeat split|]. rewrite after_snoc, !sum_snoc. destruct IH as (H1 & H2 & H3 & H4 & H5 & H6 & H7 & H8 & H9 & H10).
  destruct i as [e|]; [destruct e|]; cbn -[counts_are];
    repeat lazymatch goal with |- _ /\ _ => split end; first [lia | (apply counts_same; [assumption|reflexivity || exact I]) | (apply counts_bump; [assumption|reflexivity])].
Qed.
Lemma count_bytes_bump t n l : count_bytes (bump t n l) = count_bytes l + n.
Proof. induction l as [|[k [c b]] l IH]; cbn; [lia|]. destruct (k =? t); cbn; [|change (fold_right _ 0 (bump t n l)) with (count_bytes (bump t n l)); rewrite IH]; change (fold_right _ 0 l) with (count_bytes l); lia. Qed.
Lemma stats_octets h : let s := stats_after h in
  count_bytes (received_count (gs_encoder s)) = sum_over (octets_all enc_rx) h /\ count_bytes (codec_count (gs_encoder s)) = sum_over (octets_all enc_tx) h /\
  count_bytes (received_count (gs_decoder s)) = sum_over (octets_all dec_rx) h /\ count_bytes (codec_count (gs_decoder s)) = sum_over (octets_all dec_tx) h.
Proof.
  cbv zeta. induction h as [|i h IH] using rev_ind; [repeat split|]. rewrite after_snoc, !sum_snoc. destruct IH as (H1 & H2 & H3 & H4).
  destruct i as [e|]; [destruct e|]; cbn -[count_bytes]; rewrite ?count_bytes_bump; lia.
Qed.
(** intervals *)
Definition intervals_are (s : SocketStats) a b c d : Prop :=
  bytes_received_interval s = a /\ packets_received_interval s = b /\ bytes_sent_interval s = c /\ packets_sent_interval s = d.
Lemma quiet s h : no_tick h -> let s' := fold_left stat_step h s in
  intervals_are (gs_dis s') (bytes_received_interval (gs_dis s) + sum_over dis_in h) (packets_received_interval (gs_dis s) + sum_over dis_ins h)
    (bytes_sent_interval (gs_dis s) + sum_over dis_out h) (packets_sent_interval (gs_dis s) + sum_over dis_outs h) /\
  intervals_are (gs_cdis s') (bytes_received_interval (gs_cdis s) + sum_over cdis_in h) (packets_received_interval (gs_cdis s) + sum_over cdis_ins h)
    (bytes_sent_interval (gs_cdis s) + sum_over cdis_out h) (packets_sent_interval (gs_cdis s) + sum_over cdis_outs h) /\
  (forall z a b c d, aggregates_are (z s) a b c d [] \/ True) /\
  (bytes_received_latest_aggregate (gs_dis s') = bytes_received_latest_aggregate (gs_dis s) /\ packets_received_latest_aggregate (gs_dis s') = packets_received_latest_aggregate (gs_dis s) /\
   bytes_sent_latest_aggregate (gs_dis s') = bytes_sent_latest_aggregate (gs_dis s) /\ packets_sent_latest_aggregate (gs_dis s') = packets_sent_latest_aggregate (gs_dis s)) /\
  (bytes_received_latest_aggregate (gs_cdis s') = bytes_received_latest_aggregate (gs_cdis s) /\ packets_received_latest_aggregate (gs_cdis s') = packets_received_latest_aggregate (gs_cdis s) /\
   bytes_sent_latest_aggregate (gs_cdis s') = bytes_sent_latest_aggregate (gs_cdis s) /\ packets_sent_latest_aggregate (gs_cdis s') = packets_sent_latest_aggregate (gs_cdis s)) /\
  compression_rate (gs_encoder s') = compression_rate (gs_encoder s) /\ compression_rate (gs_decoder s') = compression_rate (gs_decoder s).
Proof.
  intros N. cbv zeta. induction h as [|i h IH] using rev_ind; [unfold intervals_are; cbn; rewrite !Z.add_0_r; repeat split; auto|]. rewrite fold_left_app. cbn [fold_left].
  assert (N' : no_tick h) by (intros X; apply N; apply in_or_app; now left). specialize (IH N'). destruct IH as ((A1 & A2 & A3 & A4) & (B1 & B2 & B3 & B4) & _ & (C1 & C2 & C3 & C4) & (D1 & D2 & D3 & D4) & E1 & E2).
  destruct i as [e|]; [|exfalso; apply N; apply in_or_app; right; now left]. unfold intervals_are. rewrite !sum_snoc.
  destruct e; cbn; repeat lazymatch goal with |- _ /\ _ => split end; try lia; try assumption; auto.
Qed.
Lemma fresh_intervals h0 : h0 = [] \/ (exists h', h0 = h' ++ [Tick]) -> intervals_are (gs_dis (stats_after h0)) 0 0 0 0 /\ intervals_are (gs_cdis (stats_after h0)) 0 0 0 0.
Proof. intros [->|[h' ->]]; [repeat split|]. rewrite after_snoc. repeat split. Qed.
(*@C37
   After any history of events and ticks the octet and datagram counters of both sockets are the sums over the events of the history. *)
Lemma gateway_totals_pf : forall h, totals_are (gs_dis (stats_after h)) dis_in dis_ins dis_out dis_outs h /\ totals_are (gs_cdis (stats_after h)) cdis_in cdis_ins cdis_out cdis_outs h.
Proof. exact stats_totals_pf. Qed.
(*@C37
   ... and so are the number of PDUs and of octets per PDU type, received and translated, and the numbers of rejected and of unimplemented PDUs, of both codecs. *)
Lemma gateway_counts_pf : forall h, let s := stats_after h in
  counts_are (received_count (gs_encoder s)) enc_rx h /\ counts_are (codec_count (gs_encoder s)) enc_tx h /\
  counts_are (received_count (gs_decoder s)) dec_rx h /\ counts_are (codec_count (gs_decoder s)) dec_tx h /\
  rejected_count (gs_encoder s) = sum_over enc_rejected h /\ rejected_count (gs_decoder s) = sum_over dec_rejected h /\
  unimplemented_count (gs_encoder s) = sum_over enc_unimplemented h /\ unimplemented_count (gs_decoder s) = sum_over dec_unimplemented h /\
  unimplemented_bytes (gs_encoder s) = sum_over enc_unimplemented_octets h /\ unimplemented_bytes (gs_decoder s) = sum_over dec_unimplemented_octets h.
Proof. exact stats_counts_pf. Qed.
(*@C37
   The latest aggregates are the sums over the events between the last two ticks, or before the first, whatever came before and whatever events came after. *)
Lemma gateway_aggregates_pf : forall before interval after, before = [] \/ (exists h, before = h ++ [Tick]) -> no_tick interval -> no_tick after ->
  let s := stats_after (before ++ interval ++ Tick :: after) in
  aggregates_are (gs_dis s) dis_in dis_ins dis_out dis_outs interval /\ aggregates_are (gs_cdis s) cdis_in cdis_ins cdis_out cdis_outs interval.
Proof.
  intros h0 h3 h2 H0 H3 H2. cbv zeta. rewrite after_app, fold_left_app. cbn [fold_left]. destruct (fresh_intervals h0 H0) as [(A1 & A2 & A3 & A4) (B1 & B2 & B3 & B4)].
  set (s0 := stats_after h0) in *. destruct (quiet s0 h3 H3) as ((C1 & C2 & C3 & C4) & (D1 & D2 & D3 & D4) & _). set (s1 := fold_left stat_step h3 s0) in *.
  destruct (quiet (stat_step s1 Tick) h2 H2) as (_ & _ & _ & (E1 & E2 & E3 & E4) & (F1 & F2 & F3 & F4) & _). unfold aggregates_are. cbn [stat_step aggregate_all gs_dis gs_cdis sock_aggregate
    bytes_received_latest_aggregate packets_received_latest_aggregate bytes_sent_latest_aggregate packets_sent_latest_aggregate] in *. lia.
Qed.
(*@C37
   Before the first tick they are zero. *)
Lemma gateway_aggregates_initial_pf : forall h, no_tick h -> let s := stats_after h in
  aggregates_are (gs_dis s) dis_in dis_ins dis_out dis_outs [] /\ aggregates_are (gs_cdis s) cdis_in cdis_ins cdis_out cdis_outs [].
Proof. intros h H. cbv zeta. destruct (quiet stats_zero h H) as (_ & _ & _ & E & F & _). split; [exact E|exact F]. Qed.
(*@C37
   The compression rate shown after a tick is the ratio, in percent, of all octets translated to all octets received up to that tick; it stays as it was when nothing was received. *)
Lemma gateway_compression_pf : forall before after, no_tick after -> let s0 := stats_after before in let s := stats_after (before ++ Tick :: after) in
  compression_rate (gs_encoder s) = (if sum_over (octets_all enc_rx) before =? 0 then compression_rate (gs_encoder s0)
    else f64_ratio_percent (sum_over (octets_all enc_tx) before) (sum_over (octets_all enc_rx) before)) /\
  compression_rate (gs_decoder s) = (if sum_over (octets_all dec_rx) before =? 0 then compression_rate (gs_decoder s0)
    else f64_ratio_percent (sum_over (octets_all dec_tx) before) (sum_over (octets_all dec_rx) before)).
Proof.
  intros h h2 H2. cbv zeta. rewrite after_app. cbn [fold_left]. destruct (quiet (stat_step (stats_after h) Tick) h2 H2) as (_ & _ & _ & _ & _ & -> & ->).
  destruct (stats_octets h) as (A & B & C & D). cbn [stat_step aggregate_all gs_encoder gs_decoder codec_aggregate compression_rate]. rewrite A, B, C, D. split; reflexivity.
Qed.
(*@ex*)
Example gateway_stats_example : let h1 := [Ev (ReceivedBytesDis 144); Ev (ReceivedDis 1 144); Ev (EncodedPdu 1 40); Ev (SentCDis 40)] in
  let h2 := [Ev (ReceivedBytesDis 160); Ev (ReceivedDis 1 160); Ev (EncodedPdu 1 36); Ev (SentCDis 36); Ev (ReceivedBytesDis 20); Ev (RejectedUnsupportedDisPdu 42 20); Ev (SentCDis 0)] in
  no_tick h1 /\ no_tick h2 /\ let s := stats_after ((h1 ++ [Tick]) ++ h2 ++ Tick :: []) in
  bytes_received (gs_dis s) = 324 /\ packets_received (gs_dis s) = 3 /\ bytes_received_latest_aggregate (gs_dis s) = 180 /\ bytes_sent_latest_aggregate (gs_cdis s) = 36 /\
  lookup_count 1 (received_count (gs_encoder s)) = Some (2, 304) /\ lookup_count 2 (received_count (gs_encoder s)) = None /\ rejected_count (gs_encoder s) = 1 /\
  compression_rate (gs_encoder s) = S754_finite false 7036874417766400 (-48).
Proof. cbv zeta. unfold no_tick. split; [intros H; repeat (destruct H as [H|H]; [discriminate H|]); exact H|]. split; [intros H; repeat (destruct H as [H|H]; [discriminate H|]); exact H|]. vm_compute. repeat split. Qed.

(** * Properties: GatewayLive

    Theorems only: each is closed by the lemma of the same name in L_GatewayLive.v. *)
From Coq Require Import ZArith List Lia Bool String Ascii.
From Verif Require Import Base CdisBase DisCommon DisHeader DisPdu DisPacket CdisRecords CdisPdu SpecCdisPdu CdisCodec1 CdisCodec2 CdisCodec3 SpecCodec L_CodecDec Gateway SpecGateway L_Stats L_Gateway GatewaySys SpecGatewaySys L_GatewaySys L_GatewayLive.
Import ListNotations. Open Scope Z_scope.

(** C45. What the gateway does by itself always comes to an end: from no state, reachable or not, is there an infinite sequence of its own steps. *)
Theorem gateway_settles : forall m g o capacity s, Acc (fun s' s => exists a, by_itself a = true /\ sys_step m g o capacity s a = Some s') s.
Proof. exact gateway_settles_pf. Qed.
Print Assumptions gateway_settles.

(** C45. As long as nobody tells the gateway to stop and no socket fails: when it can do nothing by itself any more, then everything it had to do is done - no
   datagram waits anywhere and no event is uncounted - or a codec task has panicked. There is no deadlock, whatever the schedule was. *)
Theorem gateway_no_deadlock : forall m g o capacity l s, Forall (fun a => undisturbed a = true) l -> sys_run m g o capacity sys_new l = Some s ->
  (forall a, by_itself a = true -> sys_step m g o capacity s a = None) -> at_rest s \/ gateway_down s = true.
Proof. exact gateway_no_deadlock_pf. Qed.
Print Assumptions gateway_no_deadlock.

(** C45. So, undisturbed, the gateway can always go on by itself until it is at rest, or down. *)
Theorem gateway_comes_to_rest : forall m g o capacity l s, Forall (fun a => undisturbed a = true) l -> sys_run m g o capacity sys_new l = Some s ->
  exists l' s', Forall (fun a => by_itself a = true) l' /\ sys_run m g o capacity s l' = Some s' /\ (at_rest s' \/ gateway_down s' = true).
Proof. exact gateway_comes_to_rest_pf. Qed.
Print Assumptions gateway_comes_to_rest.

(** C46. What can bring the gateway down: in any reachable state, a step at which a codec task panics is one of three. An event finds the channel full (50 events
   waiting) or the statistics task stopped; or the codec fails on the datagram it took, as it does by itself; or the writer has stopped. *)
Theorem gateway_down_causes : forall m g o capacity s a s', reachable m g o capacity s -> gateway_down s = false -> sys_step m g o capacity s a = Some s' -> gateway_down s' = true ->
  ((a = Enc Emit \/ a = Dec Emit) /\ (zlen (s_events s) = 50 \/ s_stats_up s = false)) \/
  encoder_alone m g o (f_handled (s_enc s)) = None \/ decoder_alone m g o capacity (f_handled (s_dec s)) = None \/
  f_writer (s_enc s) = false \/ f_writer (s_dec s) = false.
Proof. exact gateway_down_causes_pf. Qed.
Print Assumptions gateway_down_causes.

(** C45. Undisturbed, and if the encoder does not fail on the datagrams read so far (at whatever time it handles them), the gateway can, by itself, come to rest with
   everything handled and sent (see C43), whatever the schedule was up to now, unless it is down already. *)
Theorem gateway_can_deliver : forall m g o capacity l s, (forall buf, 12 <= capacity buf) -> Forall (fun a => undisturbed a = true) l -> sys_run m g o capacity sys_new l = Some s -> gateway_down s = false ->
  (forall times, length times = length (f_seen (s_enc s)) -> encoder_alone m g o (combine times (f_seen (s_enc s))) <> None) ->
  exists l' s', Forall (fun a => by_itself a = true) l' /\ sys_run m g o capacity s l' = Some s' /\ at_rest s' /\ gateway_down s' = false /\
    f_seen (s_enc s') = f_seen (s_enc s) /\ f_seen (s_dec s') = f_seen (s_dec s).
Proof. exact gateway_can_deliver_pf. Qed.
Print Assumptions gateway_can_deliver.

(** C46. The first of the causes is within reach of anybody who can send the gateway a datagram: whenever the encoder makes more than 50 events of a datagram, which
   happens for 50 PDUs of any kind, there is a schedule, undisturbed, on which the gateway is down after that datagram. *)
Theorem gateway_overrun : forall m g o capacity c d, 
  (50 < length (match encode_buffer m g o encoder_new (c, firstn reader_buffer d) with Done evs _ => evs | Died evs => evs end))%nat ->
  exists l s, Forall (fun a => undisturbed a = true) l /\ sys_run m g o capacity sys_new l = Some s /\ gateway_down s = true.
Proof. exact gateway_overrun_pf. Qed.
Print Assumptions gateway_overrun.

(** C46. The property is refuted: a single datagram of 600 octets, 50 header-only PDUs, brings the gateway down on some schedule, although the encoder by itself
   handles it. *)
Theorem gateway_survives_refuted : forall g o capacity c, exists d l s, zlen d = 600 /\ encoder_alone Checked g o [(c, d)] <> None /\
  Forall (fun a => undisturbed a = true) l /\ sys_run Checked g o capacity sys_new l = Some s /\ gateway_down s = true.
Proof. exact gateway_survives_refuted_pf. Qed.
Print Assumptions gateway_survives_refuted.

(** C46. Otherwise the gateway stays up: undisturbed, if the event channel is never full, and if the encoder does not fail on the datagrams read, no task panics. *)
Theorem gateway_survives : forall m g o capacity l s, (forall buf, 12 <= capacity buf) -> Forall (fun a => undisturbed a = true) l -> sys_run m g o capacity sys_new l = Some s ->
  (forall l1 l2 s1, l = l1 ++ l2 -> sys_run m g o capacity sys_new l1 = Some s1 -> zlen (s_events s1) < 50) ->
  (forall times, length times = length (f_seen (s_enc s)) -> encoder_alone m g o (combine times (f_seen (s_enc s))) <> None) -> gateway_down s = false.
Proof. exact gateway_survives_pf. Qed.
Print Assumptions gateway_survives.

Example gateway_rest_example : forall g o capacity, (forall buf, 12 <= capacity buf) -> exists l s, Forall (fun a => undisturbed a = true) l /\ sys_run Checked g o capacity sys_new l = Some s /\
  at_rest s /\ gateway_down s = false /\ f_seen (s_enc s) = [stop_octets 255] /\ zlen (f_sent (s_enc s)) = 1.
Proof.
  intros g o capacity C. pose proof (start_run Checked g o capacity (stop_octets 255)) as St. rewrite stop_short in St.
  assert (U : Forall (fun a => undisturbed a = true) [Enc (Receive false (stop_octets 255))]) by (constructor; [reflexivity|constructor]).
  destruct (gateway_can_deliver_pf Checked g o capacity _ _ C U St (holding_up _ _)) as (l & s & F & R & Rest & D & S1 & S2).
  - rewrite holding_seen. intros [|c [|]] L; try discriminate L. exact (after_stop_alone g o c).
  - exists ([Enc (Receive false (stop_octets 255))] ++ l), s. assert (Ru : sys_run Checked g o capacity sys_new ([Enc (Receive false (stop_octets 255))] ++ l) = Some s) by (rewrite sys_run_app, St; exact R).
    split; [apply Forall_app; split; [exact U|]; eapply Forall_impl; [|exact F]; exact own_undisturbed|]. split; [exact Ru|]. split; [exact Rest|]. split; [exact D|]. rewrite holding_seen in S1. split; [exact S1|].
    destruct (gateway_order_at_rest_pf Checked g o capacity s (ex_intro _ _ Ru) Rest) as [(times & e & Lt & A) _]. rewrite S1 in Lt, A. destruct times as [|c [|]]; try discriminate Lt.
    exact (alone_one_out _ _ _ _ _ _ _ A).
Qed.

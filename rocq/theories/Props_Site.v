(** * Properties: Site

    Theorems only: each is closed by the lemma of the same name in L_Site.v. *)
From Coq Require Import ZArith List Lia Bool String Ascii SpecFloat.
From Verif Require Import Base CdisBase DisHeader DisPdu DisPacket CdisRecords CdisPdu SpecCdisPdu CdisCodec1 CdisCodec2 CdisCodec3 Gateway SpecGateway GatewaySys SpecGatewaySys SpecCodec
  GatewaySite SpecSite L_Stats L_Gateway L_GatewaySys L_GatewayLive L_Site.
Import ListNotations. Open Scope Z_scope.

(** C61. Whatever the schedule of the gateway, of the emit timer and of the page: every panel of the page is still empty or shows exactly the numbers of a moment in the
   past, the page never shows a number that was not true of some earlier state of the statistics, and no panel is torn between two moments. *)
Theorem site_shows : forall m g o capacity cap s, site_reachable m g o capacity cap s -> exists k, st_page s = page_at k /\ past k (s_history (st_sys s)).
Proof. exact site_shows_pf. Qed.
Print Assumptions site_shows.

(** C61. Unless the page is loaded again, every panel only moves on in time: what it shows later was true later, whatever messages the channel dropped in between. *)
Theorem site_onward : forall m g o capacity cap s l s', site_reachable m g o capacity cap s -> site_run m g o capacity cap s l = Some s' -> ~ In Connect l ->
  exists k k', st_page s = page_at k /\ st_page s' = page_at k' /\ onward k k' /\ past k' (s_history (st_sys s')).
Proof. exact site_onward_pf. Qed.
Print Assumptions site_onward.

(** C61. A page that was just loaded is empty, and shows nothing that is older than the load: every panel it shows later is of a moment after it. *)
Theorem site_load : forall m g o capacity cap s l s', site_reachable m g o capacity cap s -> site_run m g o capacity cap s (Connect :: l) = Some s' ->
  exists k, st_page s' = page_at k /\ past k (s_history (st_sys s')) /\
    forall x, at_dis k = Some x \/ at_cdis k = Some x \/ at_encoder k = Some x \/ at_decoder k = Some x -> earlier (s_history (st_sys s)) x.
Proof. exact site_load_pf. Qed.
Print Assumptions site_load.

(** C61. If the channel has room for four messages, then once the page has taken in all that was sent up to a tick of the emit timer, all four panels show the whole of the
   statistics at that tick, whatever the gateway did in the meantime and whatever was dropped before. *)
Theorem site_fresh : forall m g o capacity cap s l s', (4 <= cap)%nat -> site_reachable m g o capacity cap s -> site_run m g o capacity cap s (EmitStats :: l) = Some s' ->
  ~ In EmitStats l -> ~ In Connect l -> st_queue s' = [] -> st_page s' = page_at (every_moment (s_history (st_sys s))).
Proof. exact site_fresh_pf. Qed.
Print Assumptions site_fresh.

(** C61. And the page gets there: after every tick of the emit timer the page can take in all that is queued, and then shows the whole of the statistics. *)
Theorem site_catches_up : forall m g o capacity cap s, (4 <= cap)%nat -> site_reachable m g o capacity cap s -> s_stats_up (st_sys s) = true ->
  exists n s', site_run m g o capacity cap s (EmitStats :: repeat Show n) = Some s' /\ st_queue s' = [] /\ st_sys s' = st_sys s /\ st_page s' = page_at (every_moment (s_history (st_sys s))).
Proof. exact site_catches_up_pf. Qed.
Print Assumptions site_catches_up.

(** C61. The boxes of the two codec panels only ever grow, all but the first one: a number once shown in one of them is never followed by a smaller one, unless the page
   is loaded again. *)
Theorem site_boxes_grow : forall m g o capacity cap s l s' caption n, site_reachable m g o capacity cap s -> site_run m g o capacity cap s l = Some s' -> ~ In Connect l -> caption <> "PDUs encoded"%string ->
  (forall boxes rate, pg_encoder (st_page s) = Some (boxes, rate) -> in_box caption boxes = Some n ->
    exists boxes' rate' n', pg_encoder (st_page s') = Some (boxes', rate') /\ in_box caption boxes' = Some n' /\ n <= n') /\
  (forall boxes rate, pg_decoder (st_page s) = Some (boxes, rate) -> in_box caption boxes = Some n ->
    exists boxes' rate' n', pg_decoder (st_page s') = Some (boxes', rate') /\ in_box caption boxes' = Some n' /\ n <= n').
Proof. exact site_boxes_grow_pf. Qed.
Print Assumptions site_boxes_grow.

(** C61. The first box does not: the PDUs encoded go from 1 to 0 when, after a PDU that was encoded, one is rejected that C-DIS does not have. *)
Theorem site_encoded_shrinks_refuted : exists h h', earlier h h' /\ in_box "PDUs encoded" (encoder_boxes h) = Some 1 /\ in_box "PDUs encoded" (encoder_boxes h') = Some 0 /\
  sum_over (any_type enc_tx) h = 1 /\ sum_over (any_type enc_tx) h' = 1.
Proof. exact site_encoded_shrinks_refuted_pf. Qed.
Print Assumptions site_encoded_shrinks_refuted.

(** C61. What the codec panels say of a gateway at rest. The encoder: rejected are the PDUs of a type C-DIS does not have, each type has as many as there were PDUs of that
   type in the datagrams read, and nothing is unimplemented; but the first box, the PDUs encoded, shows the PDUs of C-DIS types less the rejected ones, which were never
   among them, and 0 if that is negative. The decoder: no PDU of any type, however many there were; all of them are unimplemented, and the first box counts
   the PDUs of types that C-DIS does not have, which it decodes to nothing. (Its send buffer has room for 12 octets at least.) *)
Theorem site_at_rest : forall m g o capacity s, (forall buf, 12 <= capacity buf) -> reachable m g o capacity s -> at_rest s ->
  (let ps := dis_pdus m (f_seen (s_enc s)) in let rejected := zlen (filter (fun p => negb (in_cdis p)) ps) in
   encoder_boxes (s_history s) = boxes_with (Z.max 0 (zlen (filter in_cdis ps) - rejected)) rejected (fun ty => zlen (filter (of_type ty) ps)) 0) /\
  (let cs := cdis_pdus (f_seen (s_dec s)) in
   decoder_boxes (s_history s) = boxes_with (zlen (filter (fun c => negb (cin_cdis c)) cs)) 0 (fun _ => 0) (zlen (filter cin_cdis cs))).
Proof. exact site_at_rest_pf. Qed.
Print Assumptions site_at_rest.

(** C61. So, at rest, the first box of the encoder panel is the number of PDUs that were encoded only if none was rejected (or none was encoded). *)
Theorem site_encoded_refuted : forall m g o capacity s, (forall buf, 12 <= capacity buf) -> reachable m g o capacity s -> at_rest s ->
  let ps := dis_pdus m (f_seen (s_enc s)) in
  (in_box "PDUs encoded" (encoder_boxes (s_history s)) = Some (zlen (filter in_cdis ps)) <-> Forall (fun p => in_cdis p = true) ps \/ Forall (fun p => in_cdis p = false) ps).
Proof. exact site_encoded_refuted_pf. Qed.
Print Assumptions site_encoded_refuted.

Example site_at_rest_example : forall g o capacity cap, (forall buf, 12 <= capacity buf) -> exists s p q, reachable Checked g o capacity s /\ at_rest s /\
  dis_pdus Checked (f_seen (s_enc s)) = [p; q] /\ in_cdis p = false /\ in_cdis q = true /\ site_reachable Checked g o capacity cap (MkSite s [] page_new) /\
  in_box "PDUs encoded" (encoder_boxes (s_history s)) = Some 0 /\ in_box "PDUs rejected" (encoder_boxes (s_history s)) = Some 1 /\ in_box "Stop / Freeze" (encoder_boxes (s_history s)) = Some 1.
Proof.
  intros g o capacity cap C. destruct (mixed_rest g o capacity C) as (l & s & R & Rest & Sn). destruct mixed_pdus as (p & q & D & E1 & E2 & T). exists s, p, q. rewrite Sn.
  assert (Rs : reachable Checked g o capacity s) by now exists l. destruct (site_at_rest_pf _ _ _ _ _ C Rs Rest) as [B _]. rewrite Sn, D in B. cbv zeta in B. cbn [filter] in B. rewrite E1, E2 in B. cbn [negb filter] in B.
  split; [exact Rs|]. split; [exact Rest|]. split; [exact D|]. split; [exact E1|]. split; [exact E2|]. split; [exists (map Gateway l); exact (site_run_sys Checked g o capacity cap l site_new s R)|].
  rewrite B. repeat apply conj; [reflexivity|reflexivity|]. unfold boxes_with, type_names, in_box. cbn [map app find fst snd String.eqb Ascii.eqb Bool.eqb option_map].
  unfold of_type. rewrite T. unfold in_cdis in E1. destruct (Z.eqb_spec (h_type (pdu_header p)) 14) as [X|_]; [rewrite X in E1; discriminate E1|reflexivity].
Qed.

Example site_fresh_example : forall m g o capacity cap, (4 <= cap)%nat -> exists n s', site_run m g o capacity cap site_new (EmitStats :: repeat Show n) = Some s' /\ st_queue s' = [] /\
  st_page s' = page_at (every_moment []) /\ site_reachable m g o capacity cap s'.
Proof.
  intros m g o capacity cap C. destruct (site_catches_up_pf m g o capacity cap site_new C (ex_intro _ [] eq_refl) eq_refl) as (n & s' & H & Q & _ & P). exists n, s'. split; [exact H|]. split; [exact Q|]. split; [exact P|]. now exists (EmitStats :: repeat Show n).
Qed.

(** * C61: what the gateway's web page shows *)
From Coq Require Import ZArith List Lia Bool SpecFloat String.
From Verif Require Import Base CdisBase DisHeader DisPdu DisPacket CdisRecords CdisPdu SpecCdisPdu CdisCodec1 CdisCodec2 CdisCodec3 Gateway SpecGateway GatewaySys SpecGatewaySys SpecCodec
  GatewaySite SpecSite L_Stats L_Gateway L_GatewaySys L_GatewayLive.
Import ListNotations. Open Scope Z_scope.

(** ** The panels after a history *)
Lemma count_for_is s f h ty : counts_are (received_count s) f h -> count_for s ty = sum_over (count_type f ty) h.
Proof. intros H. unfold count_for. rewrite (H ty). destruct (Z.eqb_spec (sum_over (count_type f ty) h) 0) as [->|_]; reflexivity. Qed.
Lemma count_pdus_bump t n l : count_pdus (bump t n l) = count_pdus l + 1.
Proof. induction l as [|[k [c b]] l IH]; cbn; [lia|]. destruct (k =? t); cbn; [|change (fold_right _ 0 (bump t n l)) with (count_pdus (bump t n l)); rewrite IH]; change (fold_right _ 0 l) with (count_pdus l); lia. Qed.
Lemma stats_pdus h : let s := stats_after h in
  count_pdus (received_count (gs_encoder s)) = sum_over (any_type enc_rx) h /\ count_pdus (received_count (gs_decoder s)) = sum_over (any_type dec_rx) h.
Proof.
  cbv zeta. induction h as [|i h IH] using rev_ind; [split; reflexivity|]. rewrite after_snoc, !sum_snoc. destruct IH as (H1 & H2).
  destruct i as [e|]; [destruct e|]; cbn -[count_pdus]; rewrite ?count_pdus_bump; lia.
Qed.
Lemma sat_is a b : saturating_sub a b = Z.max 0 (a - b).
Proof. unfold saturating_sub. destruct (Z.ltb_spec a b); lia. Qed.
Lemma boxes_are s rx rej un h : counts_are (received_count s) rx h -> count_pdus (received_count s) = sum_over (any_type rx) h -> rejected_count s = sum_over rej h ->
  unimplemented_count s = sum_over un h -> codec_html (codec_values s) = codec_boxes rx rej un h.
Proof.
  intros A B C D. unfold codec_html, codec_values, codec_boxes.
  cbn [cv_received cv_es cv_fire cv_detonation cv_collision cv_create cv_remove cv_start cv_stop cv_ack cv_action_request cv_action_response cv_data_query cv_set_data cv_data cv_event_report
    cv_comment cv_ee cv_designator cv_transmitter cv_signal cv_receiver cv_iff cv_rejected cv_unimplemented cv_rate].
  rewrite sat_is, B, C, D, !(count_for_is s rx h) by exact A. reflexivity.
Qed.
Lemma encoder_boxes_are h : codec_html (codec_values (gs_encoder (stats_after h))) = encoder_boxes h.
Proof. destruct (stats_counts_pf h) as (A & _ & _ & _ & B & _ & C & _). destruct (stats_pdus h) as [D _]. now apply boxes_are. Qed.
Lemma decoder_boxes_are h : codec_html (codec_values (gs_decoder (stats_after h))) = decoder_boxes h.
Proof. destruct (stats_counts_pf h) as (_ & _ & A & _ & _ & B & _ & C & _). destruct (stats_pdus h) as [_ D]. now apply boxes_are. Qed.
(** the interval so far, and the last one *)
Fixpoint since_tick (h : list StatInput) (cur : list StatInput) : list StatInput :=
  match h with [] => cur | Tick :: t => since_tick t [] | Ev e :: t => since_tick t (cur ++ [Ev e]) end.
Lemma since_snoc h i : forall cur, since_tick (h ++ [i]) cur = match i with Tick => [] | Ev e => since_tick h cur ++ [Ev e] end.
Proof. induction h as [|[e|] h IH]; intros cur; cbn [app since_tick]; [destruct i; reflexivity| |]; apply IH. Qed.
Lemma last_snoc h i : forall cur d, last_interval (h ++ [i]) cur d = match i with Tick => since_tick h cur | Ev _ => last_interval h cur d end.
Proof. induction h as [|[e|] h IH]; intros cur d; cbn [app last_interval since_tick]; [destruct i; reflexivity| |]; apply IH. Qed.
Definition interval_is (s : SocketStats) (inb ins outb outs : Event -> Z) (h : list StatInput) : Prop :=
  bytes_received_interval s = sum_over inb h /\ packets_received_interval s = sum_over ins h /\ bytes_sent_interval s = sum_over outb h /\ packets_sent_interval s = sum_over outs h.
Lemma stats_intervals h : let s := stats_after h in
  (interval_is (gs_dis s) dis_in dis_ins dis_out dis_outs (since_tick h []) /\ aggregates_are (gs_dis s) dis_in dis_ins dis_out dis_outs (latest h)) /\
  (interval_is (gs_cdis s) cdis_in cdis_ins cdis_out cdis_outs (since_tick h []) /\ aggregates_are (gs_cdis s) cdis_in cdis_ins cdis_out cdis_outs (latest h)).
Proof.
  cbv zeta. unfold latest. induction h as [|i h IH] using rev_ind; [repeat split|]. rewrite after_snoc, since_snoc, last_snoc. unfold interval_is, aggregates_are in *.
  destruct IH as [[(A1 & A2 & A3 & A4) (B1 & B2 & B3 & B4)] [(C1 & C2 & C3 & C4) (D1 & D2 & D3 & D4)]]. destruct i as [e|].
  - rewrite !sum_snoc. destruct e; cbn; lia.
  - cbn. rewrite A1, A2, A3, A4, C1, C2, C3, C4. repeat split.
Qed.
Lemma dis_boxes_are h : socket_html (socket_values (gs_dis (stats_after h))) = dis_boxes h.
Proof.
  destruct (stats_totals_pf h) as [(A1 & A2 & A3 & A4) _]. destruct (stats_intervals h) as [[_ (B1 & B2 & B3 & B4)] _]. unfold socket_html, socket_values, dis_boxes, socket_boxes.
  cbn [sv_bytes_received sv_bytes_received_latest sv_bytes_sent sv_bytes_sent_latest sv_packets_received sv_packets_received_latest sv_packets_sent sv_packets_sent_latest].
  now rewrite A1, A2, A3, A4, B1, B2, B3, B4.
Qed.
Lemma cdis_boxes_are h : socket_html (socket_values (gs_cdis (stats_after h))) = cdis_boxes h.
Proof.
  destruct (stats_totals_pf h) as [_ (A1 & A2 & A3 & A4)]. destruct (stats_intervals h) as [_ [_ (B1 & B2 & B3 & B4)]]. unfold socket_html, socket_values, cdis_boxes, socket_boxes.
  cbn [sv_bytes_received sv_bytes_received_latest sv_bytes_sent sv_bytes_sent_latest sv_packets_received sv_packets_received_latest sv_packets_sent sv_packets_sent_latest].
  now rewrite A1, A2, A3, A4, B1, B2, B3, B4.
Qed.


(** ** The page *)
Lemma encoder_panel_is h : codec_panel (gs_encoder (stats_after h)) = encoder_truth h.
Proof. unfold codec_panel, encoder_truth. cbv zeta. rewrite encoder_boxes_are. f_equal. unfold codec_values. cbn [cv_rate]. unfold printable. now destruct (compression_rate _). Qed.
Lemma decoder_panel_is h : codec_panel (gs_decoder (stats_after h)) = decoder_truth h.
Proof. unfold codec_panel, decoder_truth. cbv zeta. rewrite decoder_boxes_are. f_equal. unfold codec_values. cbn [cv_rate]. unfold printable. now destruct (compression_rate _). Qed.
Definition nothing : Moments := MkMoments None None None None.
Lemma past_nothing h : past nothing h.
Proof. intros x [E|[E|[E|E]]]; discriminate E. Qed.
(** a queued message is a snapshot *)
Definition snapshot (x : SseStat) (h : list StatInput) : Prop := match x with
  | StatDis s => s = gs_dis (stats_after h) | StatCdis s => s = gs_cdis (stats_after h)
  | StatEncoder s => s = gs_encoder (stats_after h) | StatDecoder s => s = gs_decoder (stats_after h) end.
Definition turn (k : Moments) (x : SseStat) (h : list StatInput) : Moments := match x with
  | StatDis _ => MkMoments (Some h) (at_cdis k) (at_encoder k) (at_decoder k) | StatCdis _ => MkMoments (at_dis k) (Some h) (at_encoder k) (at_decoder k)
  | StatEncoder _ => MkMoments (at_dis k) (at_cdis k) (Some h) (at_decoder k) | StatDecoder _ => MkMoments (at_dis k) (at_cdis k) (at_encoder k) (Some h) end.
Lemma show_turn k x h : snapshot x h -> show (page_at k) x = page_at (turn k x h).
Proof.
  destruct x; cbn [snapshot show turn]; intros ->; unfold page_at; cbn [pg_dis pg_cdis pg_encoder pg_decoder at_dis at_cdis at_encoder at_decoder option_map].
  - now rewrite dis_boxes_are.
  - now rewrite cdis_boxes_are.
  - now rewrite encoder_panel_is.
  - now rewrite decoder_panel_is.
Qed.
Lemma earlier_refl h : earlier h h. Proof. exists []. now rewrite app_nil_r. Qed.
Lemma earlier_trans a b c : earlier a b -> earlier b c -> earlier a c.
Proof. intros [x ->] [y ->]. exists (x ++ y). now rewrite app_assoc. Qed.
(** the queue holds snapshots of later and later moments, none before what is shown, none after now *)
Inductive ordered (now : list StatInput) : Moments -> list SseStat -> list (list StatInput) -> Prop :=
| ord_nil k : past k now -> ordered now k [] []
| ord_cons k x q h hs : past k h -> snapshot x h -> Forall (earlier h) hs -> earlier h now -> ordered now k q hs -> ordered now k (x :: q) (h :: hs).
Lemma past_trans k h h' : past k h -> earlier h h' -> past k h'.
Proof. intros P E x H. eapply earlier_trans; [apply P, H|exact E]. Qed.
Lemma past_turn k x h : past k h -> past (turn k x h) h.
Proof. intros P y H. destruct x; cbn [turn at_dis at_cdis at_encoder at_decoder] in H; decompose [or] H; try (apply P; tauto); match goal with E : Some _ = Some _ |- _ => injection E as <-; apply earlier_refl end. Qed.
Lemma ordered_turn now k x h q hs : past k h -> Forall (earlier h) hs -> earlier h now -> ordered now k q hs -> ordered now (turn k x h) q hs.
Proof.
  intros P F E O. pose proof (past_turn k x h P) as T. clear P. induction O as [k P'|k y q' h' hs' P' S' F' E' O IH]; [constructor; eapply past_trans; eassumption|].
  inversion F as [|a b C D]; subst. constructor; try assumption; [eapply past_trans; eassumption|]. apply IH; [exact D|exact T].
Qed.
Lemma onward1_refl x : onward1 x x. Proof. intros h E. exists h. split; [exact E|apply earlier_refl]. Qed.
Lemma onward_refl k : onward k k. Proof. repeat split; apply onward1_refl. Qed.
Lemma onward1_trans x y z : onward1 x y -> onward1 y z -> onward1 x z.
Proof. intros A B h E. destruct (A h E) as (h1 & E1 & L1). destruct (B h1 E1) as (h2 & E2 & L2). exists h2. split; [exact E2|eapply earlier_trans; eassumption]. Qed.
Lemma onward_trans a b c : onward a b -> onward b c -> onward a c.
Proof. intros (A1 & A2 & A3 & A4) (B1 & B2 & B3 & B4). repeat split; eapply onward1_trans; eassumption. Qed.
Lemma onward_turn k x h : past k h -> onward k (turn k x h).
Proof.
  intros P. assert (X : forall o, (forall y, o = Some y -> earlier y h) -> onward1 o (Some h)) by (intros o Ho y Ey; exists h; split; [reflexivity|now apply Ho]).
  destruct x; cbn [turn]; unfold onward; cbn [at_dis at_cdis at_encoder at_decoder]; repeat (apply conj); try apply onward1_refl; apply X; intros y Ey; apply P; rewrite Ey; tauto.
Qed.
Lemma ordered_now now now' k q hs : earlier now now' -> ordered now k q hs -> ordered now' k q hs.
Proof. intros E O. induction O; constructor; try assumption; try (eapply past_trans; eassumption). eapply earlier_trans; eassumption. Qed.
Lemma ordered_skip now k q hs n : ordered now k q hs -> ordered now k (skipn n q) (skipn n hs).
Proof. revert n. intros n O. revert n. induction O as [k P|k x q h hs P S F E O IH]; intros n; [rewrite !skipn_nil; now constructor|]. destruct n; [cbn [skipn]; now constructor|]. cbn [skipn]. apply IH. Qed.
Lemma ordered_length now k q hs : ordered now k q hs -> List.length q = List.length hs.
Proof. intros O. induction O; cbn [List.length]; congruence. Qed.
Lemma ordered_past now k q hs : ordered now k q hs -> past k now.
Proof. intros O. induction O; assumption. Qed.
Lemma ordered_snoc now k q hs x : ordered now k q hs -> snapshot x now -> ordered now k (q ++ [x]) (hs ++ [now]).
Proof.
  intros O S. induction O as [k P|k y q h hs P S' F E O IH]; cbn [app].
  - apply ord_cons; [exact P|exact S|constructor|apply earlier_refl|now constructor].
  - apply ord_cons; [exact P|exact S'| |exact E|exact IH]. apply Forall_app. split; [exact F|]. constructor; [exact E|constructor].
Qed.
Lemma ordered_publish cap now k q hs x : ordered now k q hs -> snapshot x now -> exists hs', ordered now k (publish cap q x) hs' /\ forall h0, Forall (earlier h0) hs -> earlier h0 now -> Forall (earlier h0) hs'.
Proof.
  intros O S. eexists. split; [apply ordered_skip, ordered_snoc; eassumption|]. intros h0 F E.
  assert (X : Forall (earlier h0) (hs ++ [now])) by (apply Forall_app; split; [exact F|constructor; [exact E|constructor]]). rewrite <- (firstn_skipn (List.length (q ++ [x]) - cap) (hs ++ [now])) in X. now apply Forall_app in X.
Qed.
Definition moments_since (h0 : list StatInput) (k : Moments) : Prop :=
  forall x, at_dis k = Some x \/ at_cdis k = Some x \/ at_encoder k = Some x \/ at_decoder k = Some x -> earlier h0 x.
Lemma since_nothing h0 : moments_since h0 nothing.
Proof. intros x [E|[E|[E|E]]]; discriminate E. Qed.
Lemma since_turn h0 k x h : moments_since h0 k -> earlier h0 h -> moments_since h0 (turn k x h).
Proof. intros P E y H. destruct x; cbn [turn at_dis at_cdis at_encoder at_decoder] in H; decompose [or] H; try (apply P; tauto); match goal with X : Some _ = Some _ |- _ => injection X as <-; exact E end. Qed.
(** and all of it is not before a moment [h0] *)
Definition siteinv (h0 : list StatInput) (s : Site) (k : Moments) : Prop :=
  s_stats (st_sys s) = stats_after (s_history (st_sys s)) /\ st_page s = page_at k /\ moments_since h0 k /\ earlier h0 (s_history (st_sys s)) /\
  exists hs, ordered (s_history (st_sys s)) k (st_queue s) hs /\ Forall (earlier h0) hs.
Section Runs.
  Context (m : mode) (g : Geo) (o : Options) (capacity : list Z -> Z) (cap : nat).
  Lemma sys_keeps s a s' : s_stats s = stats_after (s_history s) -> sys_step m g o capacity s a = Some s' -> s_stats s' = stats_after (s_history s') /\ earlier (s_history s) (s_history s').
  Proof.
    intros I St. destruct a as [a|a| | | |]; cbn [sys_step] in St.
    - destruct (flow_step _ _ _ _ _) as [[f evs]|]; [|discriminate]. injection St as <-. split; [exact I|apply earlier_refl].
    - destruct (flow_step _ _ _ _ _) as [[f evs]|]; [|discriminate]. injection St as <-. split; [exact I|apply earlier_refl].
    - destruct (s_events s) as [|e t]; [discriminate|]. destruct (s_stats_up s); [|discriminate]. injection St as <-. cbn [s_stats s_history]. split; [|now exists [Ev e]]. rewrite after_snoc, <- I. reflexivity.
    - destruct (s_stats_up s); [|discriminate]. injection St as <-. cbn [s_stats s_history]. split; [|now exists [Tick]]. rewrite after_snoc, <- I. reflexivity.
    - injection St as <-. split; [exact I|apply earlier_refl].
    - destruct (_ && _); [|discriminate]. injection St as <-. split; [exact I|apply earlier_refl].
  Qed.
  Lemma site_step_inv h0 s a s' k : siteinv h0 s k -> site_step m g o capacity cap s a = Some s' -> exists k', siteinv h0 s' k' /\ (a <> Connect -> onward k k').
  Proof.
    intros (I & P & M & N & hs & O & Fh) St. destruct a as [a| | |]; cbn [site_step] in St.
    - destruct (sys_step m g o capacity (st_sys s) a) as [y|] eqn:E; [|discriminate]. injection St as <-. destruct (sys_keeps _ _ _ I E) as [I' L].
      exists k. split; [|intros _; apply onward_refl]. split; [exact I'|]. split; [exact P|]. split; [exact M|]. split; [eapply earlier_trans; eassumption|]. exists hs. split; [eapply ordered_now; eassumption|exact Fh].
    - destruct (s_stats_up (st_sys s)); [|discriminate]. injection St as <-. exists k. split; [|intros _; apply onward_refl]. split; [exact I|]. split; [exact P|]. split; [exact M|]. split; [exact N|]. cbn [st_sys st_queue].
      rewrite I. unfold emission. cbn [fold_left].
      destruct (ordered_publish cap _ _ _ _ (StatDis (gs_dis (stats_after (s_history (st_sys s))))) O eq_refl) as (h1 & O1 & F1).
      destruct (ordered_publish cap _ _ _ _ (StatCdis (gs_cdis (stats_after (s_history (st_sys s))))) O1 eq_refl) as (h2 & O2 & F2).
      destruct (ordered_publish cap _ _ _ _ (StatEncoder (gs_encoder (stats_after (s_history (st_sys s))))) O2 eq_refl) as (h3 & O3 & F3).
      destruct (ordered_publish cap _ _ _ _ (StatDecoder (gs_decoder (stats_after (s_history (st_sys s))))) O3 eq_refl) as (h4 & O4 & F4).
      exists h4. split; [exact O4|]. auto 6.
    - destruct (st_queue s) as [|x t]; [discriminate|]. injection St as <-. inversion O as [|k0 x0 q0 h hs0 Pk S F E O']; subst. inversion Fh as [|a b Ea Fb]; subst. exists (turn k x h). split.
      + split; [exact I|]. split; [cbn [st_page]; rewrite P; now apply show_turn|]. split; [now apply since_turn|]. split; [exact N|]. exists hs0. cbn [st_sys st_queue]. split; [now apply ordered_turn|exact Fb].
      + intros _. now apply onward_turn.
    - injection St as <-. exists nothing. split; [|intros X; now exfalso]. split; [exact I|]. split; [reflexivity|]. split; [apply since_nothing|]. split; [exact N|]. exists []. split; [constructor; apply past_nothing|constructor].
  Qed.
  Lemma site_run_inv h0 l : forall s s' k, siteinv h0 s k -> site_run m g o capacity cap s l = Some s' -> exists k', siteinv h0 s' k' /\ (~ In Connect l -> onward k k').
  Proof.
    induction l as [|a l IH]; intros s s' k I H; cbn [site_run] in H; [injection H as <-; exists k; split; [exact I|intros _; apply onward_refl]|].
    destruct (site_step m g o capacity cap s a) as [s1|] eqn:E; [|discriminate]. destruct (site_step_inv _ _ _ _ _ I E) as (k1 & I1 & L1). destruct (IH _ _ _ I1 H) as (k2 & I2 & L2).
    exists k2. split; [exact I2|]. intros N. apply onward_trans with k1; [apply L1|apply L2]; intros X; apply N; [left; now rewrite X|now right].
  Qed.
  Lemma earlier_nil h : earlier [] h. Proof. now exists h. Qed.
  Lemma site_reachable_inv s : site_reachable m g o capacity cap s -> exists k, siteinv [] s k.
  Proof.
    intros [l H]. assert (I0 : siteinv [] site_new nothing).
    { split; [reflexivity|split; [reflexivity|]]. split; [apply since_nothing|]. split; [apply earlier_nil|]. exists []. split; constructor. apply past_nothing. }
    destruct (site_run_inv [] l _ _ _ I0 H) as (k & I & _). now exists k.
  Qed.
End Runs.

(*@C61
   Whatever the schedule of the gateway, of the emit timer and of the page: every panel of the page is still empty or shows exactly the numbers of a moment in the
   past, the page never shows a number that was not true of some earlier state of the statistics, and no panel is torn between two moments. *)
Lemma site_shows_pf : forall m g o capacity cap s, site_reachable m g o capacity cap s -> exists k, st_page s = page_at k /\ past k (s_history (st_sys s)).
Proof. intros m g o capacity cap s H. apply site_reachable_inv in H. destruct H as (k & _ & P & _ & _ & hs & O & _). exists k. split; [exact P|]. eapply ordered_past; exact O. Qed.
(*@C61
   Unless the page is loaded again, every panel only moves on in time: what it shows later was true later, whatever messages the channel dropped in between. *)
Lemma site_onward_pf : forall m g o capacity cap s l s', site_reachable m g o capacity cap s -> site_run m g o capacity cap s l = Some s' -> ~ In Connect l ->
  exists k k', st_page s = page_at k /\ st_page s' = page_at k' /\ onward k k' /\ past k' (s_history (st_sys s')).
Proof.
  intros m g o capacity cap s l s' R H N. apply site_reachable_inv in R. destruct R as (k & I). destruct (site_run_inv m g o capacity cap [] l _ _ _ I H) as (k' & I' & On).
  exists k, k'. destruct I as (_ & P & _). destruct I' as (_ & P' & _ & _ & hs & O & _). split; [exact P|]. split; [exact P'|]. split; [now apply On|]. eapply ordered_past; exact O.
Qed.
(*@C61
   A page that was just loaded is empty, and shows nothing that is older than the load: every panel it shows later is of a moment after it. *)
Lemma site_load_pf : forall m g o capacity cap s l s', site_reachable m g o capacity cap s -> site_run m g o capacity cap s (Connect :: l) = Some s' ->
  exists k, st_page s' = page_at k /\ past k (s_history (st_sys s')) /\
    forall x, at_dis k = Some x \/ at_cdis k = Some x \/ at_encoder k = Some x \/ at_decoder k = Some x -> earlier (s_history (st_sys s)) x.
Proof.
  intros m g o capacity cap s l s' R H. apply site_reachable_inv in R. destruct R as (k & I & _). cbn [site_run site_step] in H.
  assert (I0 : siteinv (s_history (st_sys s)) (MkSite (st_sys s) [] page_new) nothing).
  { split; [exact I|]. split; [reflexivity|]. split; [apply since_nothing|]. split; [apply earlier_refl|]. exists []. split; constructor. apply past_nothing. }
  destruct (site_run_inv m g o capacity cap _ l _ _ _ I0 H) as (k' & (_ & P' & M & _ & hs & O & _) & _). exists k'. split; [exact P'|]. split; [eapply ordered_past; exact O|exact M].
Qed.
(** ** After a tick of the emit timer *)
Lemma skipn_le {A} (q l : list A) n : (n <= List.length q)%nat -> skipn n (q ++ l) = skipn n q ++ l.
Proof. intros H. rewrite skipn_app. replace (n - List.length q)%nat with 0%nat by lia. reflexivity. Qed.
Lemma publish_tail cap q l x : (List.length l < cap)%nat -> exists q', publish cap (q ++ l) x = q' ++ l ++ [x].
Proof. intros H. unfold publish, keep_last. rewrite <- app_assoc. eexists. apply skipn_le. rewrite !app_length. cbn [List.length]. lia. Qed.
Lemma emission_tail cap q s : (4 <= cap)%nat -> exists q', fold_left (publish cap) (emission s) q = q' ++ emission s.
Proof.
  intros H. unfold emission. cbn [fold_left]. destruct (publish_tail cap q [] (StatDis (gs_dis s))) as [q1 E1]; [cbn; lia|]. rewrite app_nil_r in E1. rewrite E1.
  destruct (publish_tail cap q1 ([] ++ [StatDis (gs_dis s)]) (StatCdis (gs_cdis s))) as [q2 ->]; [cbn; lia|].
  destruct (publish_tail cap q2 (([] ++ [StatDis (gs_dis s)]) ++ [StatCdis (gs_cdis s)]) (StatEncoder (gs_encoder s))) as [q3 ->]; [cbn; lia|].
  destruct (publish_tail cap q3 ((([] ++ [StatDis (gs_dis s)]) ++ [StatCdis (gs_cdis s)]) ++ [StatEncoder (gs_encoder s)]) (StatDecoder (gs_decoder s))) as [q4 ->]; [cbn; lia|].
  exists q4. reflexivity.
Qed.
Lemma shown_all h q p : fold_left show (q ++ emission (stats_after h)) p = page_at (every_moment h).
Proof.
  rewrite fold_left_app. generalize (fold_left show q p). intros r. unfold emission, every_moment, page_at. cbn [fold_left show pg_dis pg_cdis pg_encoder pg_decoder at_dis at_cdis at_encoder at_decoder option_map].
  now rewrite dis_boxes_are, cdis_boxes_are, encoder_panel_is, decoder_panel_is.
Qed.
Lemma shows_left m g o capacity cap l : forall s s', ~ In Connect l -> ~ In EmitStats l -> site_run m g o capacity cap s l = Some s' ->
  fold_left show (st_queue s) (st_page s) = fold_left show (st_queue s') (st_page s').
Proof.
  induction l as [|a l IH]; intros s s' N1 N2 H; cbn [site_run] in H; [now injection H as <-|].
  destruct (site_step m g o capacity cap s a) as [s1|] eqn:E; [|discriminate]. rewrite <- (IH s1 s'); [|intros X; apply N1; now right|intros X; apply N2; now right|exact H]. clear IH H.
  destruct a as [a| | |]; cbn [site_step] in E.
  - destruct (sys_step m g o capacity (st_sys s) a); [|discriminate]. now injection E as <-.
  - exfalso. apply N2. now left.
  - destruct (st_queue s) as [|x t] eqn:Q; [discriminate|]. injection E as <-. reflexivity.
  - exfalso. apply N1. now left.
Qed.
(*@C61
   If the channel has room for four messages, then once the page has taken in all that was sent up to a tick of the emit timer, all four panels show the whole of the
   statistics at that tick, whatever the gateway did in the meantime and whatever was dropped before. *)
Lemma site_fresh_pf : forall m g o capacity cap s l s', (4 <= cap)%nat -> site_reachable m g o capacity cap s -> site_run m g o capacity cap s (EmitStats :: l) = Some s' ->
  ~ In EmitStats l -> ~ In Connect l -> st_queue s' = [] -> st_page s' = page_at (every_moment (s_history (st_sys s))).
Proof.
  intros m g o capacity cap s l s' C R H N1 N2 Q. apply site_reachable_inv in R. destruct R as (k & I & _). cbn [site_run site_step] in H. destruct (s_stats_up (st_sys s)); [|discriminate].
  apply shows_left in H; [|assumption|assumption]. cbn [st_queue st_page] in H. rewrite Q in H. cbn [fold_left] in H. rewrite <- H, I. destruct (emission_tail cap (st_queue s) (stats_after (s_history (st_sys s))) C) as [q' ->].
  apply shown_all.
Qed.
Lemma shows_run m g o capacity cap s : exists s', site_run m g o capacity cap s (repeat Show (List.length (st_queue s))) = Some s' /\ st_queue s' = [] /\ st_sys s' = st_sys s.
Proof.
  destruct s as [y q p]. cbn [st_queue st_sys]. revert p. induction q as [|x q IH]; intros p; cbn [List.length repeat site_run]; [eexists; repeat split|].
  cbn [site_step st_queue st_sys st_page]. apply IH.
Qed.
(*@C61
   And the page gets there: after every tick of the emit timer the page can take in all that is queued, and then shows the whole of the statistics. *)
Lemma site_catches_up_pf : forall m g o capacity cap s, (4 <= cap)%nat -> site_reachable m g o capacity cap s -> s_stats_up (st_sys s) = true ->
  exists n s', site_run m g o capacity cap s (EmitStats :: repeat Show n) = Some s' /\ st_queue s' = [] /\ st_sys s' = st_sys s /\ st_page s' = page_at (every_moment (s_history (st_sys s))).
Proof.
  intros m g o capacity cap s C R U. pose (s1 := MkSite (st_sys s) (fold_left (publish cap) (emission (s_stats (st_sys s))) (st_queue s)) (st_page s)).
  destruct (shows_run m g o capacity cap s1) as (s' & H & Q & Y). exists (List.length (st_queue s1)), s'.
  assert (H' : site_run m g o capacity cap s (EmitStats :: repeat Show (List.length (st_queue s1))) = Some s') by (cbn [site_run site_step]; rewrite U; exact H).
  split; [exact H'|]. split; [exact Q|]. split; [exact Y|]. eapply site_fresh_pf; [exact C|exact R|exact H'| | |exact Q]; intros X; apply repeat_spec in X; discriminate.
Qed.
(** ** Growing boxes *)
Lemma sum_grows f h h' : (forall e, 0 <= f e) -> earlier h h' -> sum_over f h <= sum_over f h'.
Proof. intros P [x ->]. rewrite sum_over_app. pose proof (sum_nonneg f x P). lia. Qed.
Lemma in_box_grows c a b : Forall2 (fun x y : box => fst x = fst y /\ snd x <= snd y) a b -> forall n, in_box c a = Some n -> exists n', in_box c b = Some n' /\ n <= n'.
Proof.
  intros F. unfold in_box. induction F as [|[c1 n1] [c2 n2] a b [E L] _ IH]; intros n H; [discriminate|]. cbn [fst snd] in *. subst c2. cbn [find fst] in *.
  destruct (String.eqb c1 c); [|now apply IH]. cbn [option_map snd] in *. injection H as <-. exists n2. auto.
Qed.
Lemma in_box_other c d n l : d <> c -> in_box c ((d, n) :: l) = in_box c l.
Proof. intros N. unfold in_box. cbn [find fst]. destruct (String.eqb_spec d c) as [X|_]; [now exfalso|reflexivity]. Qed.
Lemma codec_boxes_grow rx rej un h h' c n : (forall e, 0 <= rej e) -> (forall e, 0 <= un e) -> earlier h h' -> c <> "PDUs encoded"%string ->
  in_box c (codec_boxes rx rej un h) = Some n -> exists n', in_box c (codec_boxes rx rej un h') = Some n' /\ n <= n'.
Proof.
  intros P1 P2 E Nc H. unfold codec_boxes in *. cbn [app] in *. rewrite in_box_other in H |- * by exact (not_eq_sym Nc). eapply in_box_grows; [|exact H].
  constructor; [split; [reflexivity|now apply sum_grows]|]. apply Forall2_app; [|constructor; [split; [reflexivity|now apply sum_grows]|constructor]].
  generalize type_names. intros l. induction l as [|[t i] l IH]; cbn [map]; constructor; [|exact IH]. split; [reflexivity|]. cbn [snd]. apply sum_grows; [|exact E].
  intros e. unfold count_type. destruct (rx e) as [[t' s']|]; [destruct (_ =? _)|]; lia.
Qed.
Lemma boxes_grow h h' caption n : earlier h h' -> caption <> "PDUs encoded"%string ->
  (in_box caption (encoder_boxes h) = Some n -> exists n', in_box caption (encoder_boxes h') = Some n' /\ n <= n') /\
  (in_box caption (decoder_boxes h) = Some n -> exists n', in_box caption (decoder_boxes h') = Some n' /\ n <= n').
Proof. intros E Nc. split; apply codec_boxes_grow; try assumption; intros []; cbn; lia. Qed.
(*@C61
   The boxes of the two codec panels only ever grow, all but the first one: a number once shown in one of them is never followed by a smaller one, unless the page
   is loaded again. *)
Lemma site_boxes_grow_pf : forall m g o capacity cap s l s' caption n, site_reachable m g o capacity cap s -> site_run m g o capacity cap s l = Some s' -> ~ In Connect l -> caption <> "PDUs encoded"%string ->
  (forall boxes rate, pg_encoder (st_page s) = Some (boxes, rate) -> in_box caption boxes = Some n ->
    exists boxes' rate' n', pg_encoder (st_page s') = Some (boxes', rate') /\ in_box caption boxes' = Some n' /\ n <= n') /\
  (forall boxes rate, pg_decoder (st_page s) = Some (boxes, rate) -> in_box caption boxes = Some n ->
    exists boxes' rate' n', pg_decoder (st_page s') = Some (boxes', rate') /\ in_box caption boxes' = Some n' /\ n <= n').
Proof.
  intros m g o capacity cap s l s' c n R H N Nc. destruct (site_onward_pf _ _ _ _ _ _ _ _ R H N) as (k & k' & P & P' & (_ & _ & On1 & On2) & _). rewrite P, P'.
  unfold page_at. cbn [pg_encoder pg_decoder]. split; intros b r E I.
  - destruct (at_encoder k) as [h|]; [|discriminate]. destruct (On1 h eq_refl) as (h' & -> & L). injection E as <- <-. destruct (proj1 (boxes_grow h h' c n L Nc) I) as (n' & I' & Ln).
    exists (encoder_boxes h'), (snd (encoder_truth h')), n'. auto.
  - destruct (at_decoder k) as [h|]; [|discriminate]. destruct (On2 h eq_refl) as (h' & -> & L). injection E as <- <-. destruct (proj2 (boxes_grow h h' c n L Nc) I) as (n' & I' & Ln).
    exists (decoder_boxes h'), (snd (decoder_truth h')), n'. auto.
Qed.
(*@C61
   The first box does not: the PDUs encoded go from 1 to 0 when, after a PDU that was encoded, one is rejected that C-DIS does not have. *)
Lemma site_encoded_shrinks_refuted_pf : exists h h', earlier h h' /\ in_box "PDUs encoded" (encoder_boxes h) = Some 1 /\ in_box "PDUs encoded" (encoder_boxes h') = Some 0 /\
  sum_over (any_type enc_tx) h = 1 /\ sum_over (any_type enc_tx) h' = 1.
Proof. exists [Ev (ReceivedDis 14 40); Ev (EncodedPdu 14 23)], [Ev (ReceivedDis 14 40); Ev (EncodedPdu 14 23); Ev (RejectedUnsupportedDisPdu 67 32)]. split; [eexists; reflexivity|]. repeat split. Qed.

(** ** The codec panels of a gateway at rest *)
Lemma sum_ev_map f {A} (k : A -> Event) l (v : A -> Z) : (forall a, In a l -> f (k a) = v a) -> sum_ev f (map k l) = zsum (map v l).
Proof. induction l as [|a l IH]; intros H; [reflexivity|]. cbn [map]. rewrite sum_ev_cons, H, IH by (firstorder). reflexivity. Qed.
Lemma zsum_one {A} (l : list A) : zsum (map (fun _ => 1) l) = zlen l.
Proof. induction l as [|a l IH]; [reflexivity|]. rewrite zlen_cons, <- IH. reflexivity. Qed.
Lemma zsum_filter {A} (p : A -> bool) l : zsum (map (fun a => if p a then 1 else 0) l) = zlen (filter p l).
Proof. induction l as [|a l IH]; [reflexivity|]. cbn [map filter]. change (zsum ((if p a then 1 else 0) :: map (fun a => if p a then 1 else 0) l)) with ((if p a then 1 else 0) + zsum (map (fun a => if p a then 1 else 0) l)). rewrite IH. destruct (p a); [rewrite zlen_cons|]; lia. Qed.
Definition refused (p : Pdu) : bool := negb (in_cdis p).
Lemma types_in : forall x, In x type_names -> existsb (Z.eqb (snd x)) cdis_types = true.
Proof. intros x H. unfold type_names in H. cbn [In] in H. decompose [or] H; try contradiction; subst x; reflexivity. Qed.
Lemma filter_of_type ty ps : existsb (Z.eqb ty) cdis_types = true -> filter (of_type ty) (filter in_cdis ps) = filter (of_type ty) ps.
Proof.
  intros T. induction ps as [|p ps IH]; [reflexivity|]. cbn [filter]. destruct (in_cdis p) eqn:E; cbn [filter]; rewrite IH; [reflexivity|].
  destruct (of_type ty p) eqn:X; [|reflexivity]. unfold of_type in X. apply Z.eqb_eq in X. unfold in_cdis in E. rewrite X in E. congruence.
Qed.
Lemma sum_ev_0 f l : (forall e, In e l -> f e = 0) -> sum_ev f l = 0.
Proof. induction l as [|e l IH]; intros H; [reflexivity|]. rewrite sum_ev_cons, H, IH by (firstorder). reflexivity. Qed.
Lemma encode_pdus_sums g o clock ps k st evs cs st' : encode_pdus g o clock k st ps = Done evs (cs, st') ->
  sum_ev enc_rejected evs = zlen (filter refused ps) /\ sum_ev (any_type enc_rx) evs = zlen (filter in_cdis ps) /\ sum_ev enc_unimplemented evs = 0 /\
  forall ty, existsb (Z.eqb ty) cdis_types = true -> sum_ev (count_type enc_rx ty) evs = zlen (filter (of_type ty) ps).
Proof.
  intros H. destruct (gateway_encoder_types_pf _ _ _ _ _ _ _ _ _ H) as (_ & _ & R & X & _ & U).
  rewrite <- (sum_ev_filter enc_rejected is_rejection) by (intros []; cbn; congruence). rewrite <- (sum_ev_filter (any_type enc_rx) is_received) by (intros []; cbn; congruence).
  rewrite <- (sum_ev_filter enc_unimplemented is_unimplemented) by (intros []; cbn; congruence). rewrite R, X, U.
  rewrite (sum_ev_map _ _ _ (fun _ => 1)) by reflexivity. rewrite (sum_ev_map _ _ _ (fun _ => 1)) by reflexivity. rewrite !zsum_one. repeat (split; [reflexivity|]). intros ty T.
  rewrite <- (sum_ev_filter (count_type enc_rx ty) is_received) by (intros []; cbn; congruence). rewrite X, (sum_ev_map _ _ _ (fun p => if of_type ty p then 1 else 0)) by reflexivity.
  now rewrite zsum_filter, filter_of_type.
Qed.
Lemma zlen_filter_app {A} (p : A -> bool) a b : zlen (filter p (a ++ b)) = zlen (filter p a) + zlen (filter p b).
Proof. rewrite filter_app. apply zlen_app. Qed.
Definition counted (m : mode) (l : list (list Z)) (evs : list Event) : Prop := let ps := dis_pdus m l in
  sum_ev enc_rejected evs = zlen (filter refused ps) /\ sum_ev (any_type enc_rx) evs = zlen (filter in_cdis ps) /\ sum_ev enc_unimplemented evs = 0 /\
  forall ty, existsb (Z.eqb ty) cdis_types = true -> sum_ev (count_type enc_rx ty) evs = zlen (filter (of_type ty) ps).
Lemma encode_buffer_counted m g o e c d evs out e' : encode_buffer m g o e (c, d) = Done evs (out, e') -> counted m [d] evs.
Proof.
  intros H. unfold encode_buffer in H. apply tbind_emit in H. destruct H as (f & H & ->).
  apply tbind_done in H. destruct H as (e1 & [cs st] & f2 & H1 & H & ->). apply tbind_done in H. destruct H as (e2 & [o2 b2] & f3 & H2 & H & ->).
  unfold tret in H. injection H as <- <- <-. assert (W : exists n, e2 = [SentCDis n]).
  { unfold enc_writing in H2. destruct (serialize_all _ _ _ _) as [[b n]|]; [|discriminate]. destruct (_ <=? _); [|discriminate]. cbn [tbind emit tret] in H2. injection H2 as <- _ _. eexists. reflexivity. }
  destruct W as [n ->]. cbn [fst snd] in *. unfold counted, dis_pdus. cbn [flat_map]. cbv zeta.
  assert (Z0 : forall f, f (ReceivedBytesDis (zlen d)) = 0 -> f (SentCDis n) = 0 -> sum_ev f (ReceivedBytesDis (zlen d) :: e1 ++ [SentCDis n] ++ []) = sum_ev f e1).
  { intros f F1 F2. rewrite sum_ev_cons, !sum_ev_app, sum_ev_cons, F1, F2. cbn [sum_ev fold_right]. lia. }
  rewrite !Z0 by reflexivity. destruct (parse m d) as [ps| |]; [|injection H1 as <- _ _|discriminate].
  - destruct (encode_pdus_sums _ _ _ _ _ _ _ _ _ H1) as (A & B & C & D). rewrite (app_nil_r ps). split; [exact A|]. split; [exact B|]. split; [exact C|]. intros ty T. rewrite Z0 by reflexivity. now apply D.
  - repeat (split; [reflexivity|]). intros ty T. rewrite Z0 by reflexivity. reflexivity.
Qed.
Lemma counted_app m a b x y : counted m a x -> counted m b y -> counted m (a ++ b) (x ++ y).
Proof.
  intros (A1 & A2 & A3 & A4) (B1 & B2 & B3 & B4). unfold counted, dis_pdus. rewrite flat_map_app. fold (dis_pdus m a) (dis_pdus m b). cbv zeta. rewrite !sum_ev_app, !zlen_filter_app, A1, A2, A3, B1, B2, B3.
  repeat (split; [reflexivity|]). intros ty T. rewrite sum_ev_app, zlen_filter_app, A4, B4 by exact T. reflexivity.
Qed.
Lemma encode_counted m g o l : forall e os e', run (alone_step (fun (c : nat -> Z) st d => encode_buffer m g o st (c, d))) e l = Some (os, e') ->
  counted m (map snd l) (events_alone (fun (c : nat -> Z) st d => encode_buffer m g o st (c, d)) e l).
Proof.
  induction l as [|[c d] l IH]; intros e os e' H; cbn [run events_alone fst snd map] in *; [repeat split|].
  unfold alone_step at 1 in H. cbn [fst snd] in H. destruct (encode_buffer m g o e (c, d)) as [ev [out e1]|] eqn:E; [|discriminate].
  destruct (run _ e1 l) as [[os2 e2]|] eqn:R; [|discriminate]. cbn [snd]. apply (counted_app m [d]); [eapply encode_buffer_counted; exact E|eapply IH; exact R].
Qed.
Definition foreign (c : CPdu) : bool := negb (cin_cdis c).
Definition dcounted (l : list (list Z)) (evs : list Event) : Prop := let cs := cdis_pdus l in
  sum_ev dec_rejected evs = 0 /\ sum_ev (any_type dec_rx) evs = zlen (filter foreign cs) /\ sum_ev dec_unimplemented evs = zlen (filter cin_cdis cs) /\
  forall ty, existsb (Z.eqb ty) cdis_types = true -> sum_ev (count_type dec_rx ty) evs = 0.
Lemma decode_events_counted cs : let evs := flat_map cdis_events cs in
  sum_ev dec_rejected evs = 0 /\ sum_ev (any_type dec_rx) evs = zlen (filter foreign cs) /\ sum_ev dec_unimplemented evs = zlen (filter cin_cdis cs) /\
  forall ty, existsb (Z.eqb ty) cdis_types = true -> sum_ev (count_type dec_rx ty) evs = 0.
Proof.
  cbv zeta. induction cs as [|c cs (A & B & C & D)]; [repeat split|]. cbn [flat_map filter]. assert (K : cdis_events c = if cin_cdis c then [UnimplementedDecodedPdu (ch_type (cp_header c)) (octets_for (ch_length (cp_header c)))]
    else [ReceivedCDis (ch_type (cp_header c)) (octets_for (ch_length (cp_header c))); DecodedPdu 0 12]) by reflexivity.
  assert (K2 : foreign c = negb (cin_cdis c)) by reflexivity. rewrite K, K2. clear K K2.
  destruct (cin_cdis c) eqn:E; cbv zeta; cbn [app negb]; rewrite !sum_ev_cons, ?zlen_cons; cbn [dec_rejected any_type dec_rx dec_unimplemented].
  - split; [lia|]. split; [lia|]. split; [lia|]. intros ty T. rewrite sum_ev_cons, D by exact T. reflexivity.
  - split; [lia|]. split; [lia|]. split; [lia|]. intros ty T. rewrite !sum_ev_cons, D by exact T. unfold count_type. cbn [dec_rx]. destruct (Z.eqb_spec (ch_type (cp_header c)) ty) as [X|X]; [|reflexivity].
    unfold cin_cdis in E. rewrite X in E. congruence.
Qed.
Lemma dcounted_app a b x y : dcounted a x -> dcounted b y -> dcounted (a ++ b) (x ++ y).
Proof.
  intros (A1 & A2 & A3 & A4) (B1 & B2 & B3 & B4). unfold dcounted, cdis_pdus. rewrite flat_map_app. fold (cdis_pdus a) (cdis_pdus b). cbv zeta. rewrite !sum_ev_app, !zlen_filter_app, A1, A2, A3, B1, B2, B3.
  repeat (split; [reflexivity|]). intros ty T. rewrite sum_ev_app, A4, B4 by exact T. reflexivity.
Qed.
Lemma decode_counted m g o capacity l : (forall buf, 12 <= capacity buf) -> forall e os e', run (alone_step (fun (_ : unit) st d => decode_buffer m g o capacity st d)) e l = Some (os, e') ->
  dcounted (map snd l) (events_alone (fun (_ : unit) st d => decode_buffer m g o capacity st d) e l).
Proof.
  intros C. induction l as [|[c d] l IH]; intros e os e' H; cbn [run events_alone fst snd map] in *; [repeat split|].
  unfold alone_step at 1 in H. cbn [fst snd] in H. destruct (decode_buffer_all m g o capacity e d C) as (cs & out & E & P). rewrite E in H |- *.
  destruct (run _ e l) as [[os2 e2]|] eqn:R; [|discriminate]. cbn [snd]. apply (dcounted_app [d]); [|eapply IH; exact R].
  unfold dcounted, cdis_pdus. cbn [flat_map]. rewrite app_nil_r, P. destruct (decode_events_counted cs) as (A & B & C' & D).
  assert (Z0 : forall f, f (ReceivedBytesCDis (zlen d)) = 0 -> f (SentDis (zlen out)) = 0 -> sum_ev f (ReceivedBytesCDis (zlen d) :: flat_map cdis_events cs ++ [SentDis (zlen out)]) = sum_ev f (flat_map cdis_events cs)).
  { intros f F1 F2. rewrite sum_ev_cons, !sum_ev_app, sum_ev_cons, F1, F2. cbn [sum_ev fold_right]. lia. }
  cbv zeta. rewrite !Z0 by reflexivity. replace (match match cs with [] => CParseError | _ => CParsed cs end with CParsed cs => cs | _ => [] end) with cs by (destruct cs; reflexivity).
  split; [exact A|]. split; [exact B|]. split; [exact C'|]. intros ty T. rewrite Z0 by reflexivity. now apply D.
Qed.
(*@C61
   What the codec panels say of a gateway at rest. The encoder: rejected are the PDUs of a type C-DIS does not have, each type has as many as there were PDUs of that
   type in the datagrams read, and nothing is unimplemented; but the first box, the PDUs encoded, shows the PDUs of C-DIS types less the rejected ones, which were never
   among them, and 0 if that is negative. The decoder: no PDU of any type, however many there were; all of them are unimplemented, and the first box counts
   the PDUs of types that C-DIS does not have, which it decodes to nothing. (Its send buffer has room for 12 octets at least.) *)
Lemma site_at_rest_pf : forall m g o capacity s, (forall buf, 12 <= capacity buf) -> reachable m g o capacity s -> at_rest s ->
  (let ps := dis_pdus m (f_seen (s_enc s)) in let rejected := zlen (filter (fun p => negb (in_cdis p)) ps) in
   encoder_boxes (s_history s) = boxes_with (Z.max 0 (zlen (filter in_cdis ps) - rejected)) rejected (fun ty => zlen (filter (of_type ty) ps)) 0) /\
  (let cs := cdis_pdus (f_seen (s_dec s)) in
   decoder_boxes (s_history s) = boxes_with (zlen (filter (fun c => negb (cin_cdis c)) cs)) 0 (fun _ => 0) (zlen (filter cin_cdis cs))).
Proof.
  intros m g o capacity s C H (R1 & R2 & R3). apply sinv_reachable in H. destruct H as ([F1 E1] & _ & [F2 E2] & _ & A & B & _).
  destruct (finv_rest _ _ _ F1 R1) as (S1 & st1 & W1 & A1). destruct (finv_rest _ _ _ F2 R2) as (S2 & st2 & W2 & A2).
  rewrite R3, app_nil_r in B. unfold pending in E1, E2. rewrite W1 in E1. rewrite W2 in E2. specialize (E1 ltac:(discriminate)). specialize (E2 ltac:(discriminate)). rewrite app_nil_r in E1, E2.
  destruct (encode_counted m g o _ _ _ _ A1) as (X1 & X2 & X3 & X4). destruct (decode_counted m g o capacity _ C _ _ _ A2) as (Y1 & Y2 & Y3 & Y4). rewrite <- E1 in X1, X2, X3, X4. rewrite <- E2 in Y1, Y2, Y3, Y4.
  rewrite sum_ev_filter in X1, X2, X3 by (intros []; cbn; congruence). rewrite sum_ev_filter in Y1, Y2, Y3 by (intros []; cbn; congruence).
  rewrite S1, S2, B in *. cbv zeta. split; unfold encoder_boxes, decoder_boxes, codec_boxes, boxes_with; rewrite !sum_over_ev.
  - rewrite X1, X2, X3. f_equal. f_equal. apply map_ext_in. intros x T. apply types_in, X4 in T. rewrite sum_over_ev, <- T. f_equal. symmetry. apply sum_ev_filter. intros []; cbn; congruence.
  - rewrite Y1, Y2, Y3. f_equal; [|f_equal].
    + do 2 f_equal. pose proof (zlen_nonneg (filter foreign (cdis_pdus (map snd (f_handled (s_dec s)))))). unfold foreign in *. lia.
    + apply map_ext_in. intros x T. apply types_in, Y4 in T. rewrite sum_over_ev, <- T. f_equal. symmetry. apply sum_ev_filter. intros []; cbn; congruence.
Qed.
(*@C61
   So, at rest, the first box of the encoder panel is the number of PDUs that were encoded only if none was rejected (or none was encoded). *)
Lemma site_encoded_refuted_pf : forall m g o capacity s, (forall buf, 12 <= capacity buf) -> reachable m g o capacity s -> at_rest s ->
  let ps := dis_pdus m (f_seen (s_enc s)) in
  (in_box "PDUs encoded" (encoder_boxes (s_history s)) = Some (zlen (filter in_cdis ps)) <-> Forall (fun p => in_cdis p = true) ps \/ Forall (fun p => in_cdis p = false) ps).
Proof.
  intros m g o capacity s C H R. destruct (site_at_rest_pf m g o capacity s C H R) as [-> _]. cbv zeta. unfold boxes_with, in_box. cbn [app find fst String.eqb Ascii.eqb Bool.eqb option_map snd].
  set (ps := dis_pdus m (f_seen (s_enc s))). pose proof (zlen_nonneg (filter in_cdis ps)). pose proof (zlen_nonneg (filter (fun p => negb (in_cdis p)) ps)).
  assert (A : zlen (filter (fun p => negb (in_cdis p)) ps) = 0 <-> Forall (fun p => in_cdis p = true) ps).
  { clear. induction ps as [|p ps IH]; [split; [constructor|reflexivity]|]. cbn [filter]. destruct (in_cdis p) eqn:E; cbn [negb].
    - rewrite IH. split; [now constructor|]. intros X. now inversion X.
    - rewrite zlen_cons. pose proof (zlen_nonneg (filter (fun p => negb (in_cdis p)) ps)). split; [lia|]. intros X. inversion X. congruence. }
  assert (B : zlen (filter in_cdis ps) = 0 <-> Forall (fun p => in_cdis p = false) ps).
  { clear. induction ps as [|p ps IH]; [split; [constructor|reflexivity]|]. cbn [filter]. destruct (in_cdis p) eqn:E.
    - rewrite zlen_cons. pose proof (zlen_nonneg (filter in_cdis ps)). split; [lia|]. intros X. inversion X. congruence.
    - rewrite IH. split; [now constructor|]. intros X. now inversion X. }
  rewrite <- A, <- B. split; [intros X; injection X; lia|]. intros X. f_equal. lia.
Qed.
(** a datagram of an Other PDU and a Stop/Freeze PDU *)
Definition mixed_octets : list Z := other_octets ++ stop_octets 0.
Lemma mixed_short : firstn reader_buffer mixed_octets = mixed_octets. Proof. vm_compute. reflexivity. Qed.
Lemma mixed_run g o clock : exists evs out e, encode_buffer Checked g o encoder_new (clock, mixed_octets) = Done evs (out, e).
Proof. do 3 eexists. unfold mixed_octets. enter. Qed.
Lemma mixed_pdus : exists p q, dis_pdus Checked [mixed_octets] = [p; q] /\ in_cdis p = false /\ in_cdis q = true /\ h_type (pdu_header q) = 14.
Proof. unfold dis_pdus. cbn [flat_map]. eassert (E : parse Checked mixed_octets = Parsed _) by (vm_compute; reflexivity). rewrite E. do 2 eexists. repeat split. Qed.
Lemma site_run_sys m g o capacity cap l : forall s y, sys_run m g o capacity (st_sys s) l = Some y -> site_run m g o capacity cap s (map Gateway l) = Some (MkSite y (st_queue s) (st_page s)).
Proof.
  induction l as [|a l IH]; intros [y0 q p] y H; cbn [sys_run st_sys map site_run site_step st_queue st_page] in *; [now injection H as <-|].
  destruct (sys_step m g o capacity y0 a) as [y1|]; [|discriminate]. exact (IH (MkSite y1 q p) y H).
Qed.
Lemma mixed_rest g o capacity : (forall buf, 12 <= capacity buf) -> exists l s, sys_run Checked g o capacity sys_new l = Some s /\ at_rest s /\ f_seen (s_enc s) = [mixed_octets].
Proof.
  intros C. pose proof (start_run Checked g o capacity mixed_octets) as St. rewrite mixed_short in St.
  assert (U : Forall (fun a => undisturbed a = true) [Enc (Receive false mixed_octets)]) by (constructor; [reflexivity|constructor]).
  destruct (gateway_can_deliver_pf Checked g o capacity _ _ C U St (holding_up _ _)) as (l & s & F & R & Rest & D & S1 & S2).
  - rewrite holding_seen. intros [|c [|]] L; try discriminate L. cbn [combine]. rewrite encoder_alone_one. destruct (mixed_run g o c) as (evs & out & e & H). rewrite H. discriminate.
  - exists ([Enc (Receive false mixed_octets)] ++ l), s. rewrite holding_seen in S1. split; [rewrite sys_run_app, St; exact R|]. auto.
Qed.
(*@ex*)
Example site_at_rest_example : forall g o capacity cap, (forall buf, 12 <= capacity buf) -> exists s p q, reachable Checked g o capacity s /\ at_rest s /\
  dis_pdus Checked (f_seen (s_enc s)) = [p; q] /\ in_cdis p = false /\ in_cdis q = true /\ site_reachable Checked g o capacity cap (MkSite s [] page_new) /\
  in_box "PDUs encoded" (encoder_boxes (s_history s)) = Some 0 /\ in_box "PDUs rejected" (encoder_boxes (s_history s)) = Some 1 /\ in_box "Stop / Freeze" (encoder_boxes (s_history s)) = Some 1.
Proof.
  intros g o capacity cap C. destruct (mixed_rest g o capacity C) as (l & s & R & Rest & Sn). destruct mixed_pdus as (p & q & D & E1 & E2 & T). exists s, p, q. rewrite Sn.
  assert (Rs : reachable Checked g o capacity s) by now exists l. destruct (site_at_rest_pf _ _ _ _ _ C Rs Rest) as [B _]. rewrite Sn, D in B. cbv zeta in B. cbn [filter] in B. rewrite E1, E2 in B. cbn [negb filter] in B.
  split; [exact Rs|]. split; [exact Rest|]. split; [exact D|]. split; [exact E1|]. split; [exact E2|]. split; [exists (map Gateway l); exact (site_run_sys Checked g o capacity cap l site_new s R)|].
  rewrite B. repeat apply conj; [reflexivity|reflexivity|]. unfold boxes_with, type_names, in_box. cbn [map app find fst snd String.eqb Ascii.eqb Bool.eqb option_map].
  unfold of_type. rewrite T. unfold in_cdis in E1. destruct (Z.eqb_spec (h_type (pdu_header p)) 14) as [X|_]; [rewrite X in E1; discriminate E1|reflexivity].
Qed.
(*@ex*)
Example site_fresh_example : forall m g o capacity cap, (4 <= cap)%nat -> exists n s', site_run m g o capacity cap site_new (EmitStats :: repeat Show n) = Some s' /\ st_queue s' = [] /\
  st_page s' = page_at (every_moment []) /\ site_reachable m g o capacity cap s'.
Proof.
  intros m g o capacity cap C. destruct (site_catches_up_pf m g o capacity cap site_new C (ex_intro _ [] eq_refl) eq_refl) as (n & s' & H & Q & _ & P). exists n, s'. split; [exact H|]. split; [exact Q|]. split; [exact P|]. now exists (EmitStats :: repeat Show n).
Qed.

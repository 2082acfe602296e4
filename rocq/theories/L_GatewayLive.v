(** * C45, C46: the gateway comes to rest, and what brings it down *)
From Coq Require Import ZArith List Lia Bool.
From Verif Require Import Base CdisBase DisCommon DisHeader DisPdu DisPacket CdisRecords CdisPdu SpecCdisPdu CdisCodec1 CdisCodec2 CdisCodec3 SpecCodec L_CodecDec Gateway SpecGateway L_Stats L_Gateway GatewaySys SpecGatewaySys L_GatewaySys.
Import ListNotations. Open Scope Z_scope.

(** ** Own steps come to an end *)
Definition w_reader (r : Reader) : nat := match r with RHolding _ => 2 | _ => 0 end.
Definition m1 {C S} (f : Flow C S) : nat := (w_reader (f_reader f) + length (f_in f))%nat.
Definition w_codec {S} (c : Codec S) : nat := match c with CWorking e _ => 2 * length e + 4 | CHolding _ _ => 3 | _ => 0 end%nat.
Definition m2 {C S} (f : Flow C S) : nat := (w_codec (f_codec f) + length (f_out f) + if f_writer f then 1 else 0)%nat.
Lemma flow_measure {C S} codec room quit (f f' : Flow C S) a evs : own_action a = true -> flow_step codec room quit f a = Some (f', evs) ->
  (m1 f' < m1 f \/ m1 f' = m1 f /\ m2 f' + length evs < m2 f)%nat.
Proof.
  destruct f as [r fi c fo [] seen hd sent]; unfold m1, m2; intros O St.
  all: destruct a; try discriminate O; cbn [flow_step f_reader f_in f_codec f_out f_writer f_seen f_handled f_sent set_reader set_codec set_writer andb negb] in St;
    repeat match type of St with
    | Some (_, _) = Some (_, _) => injection St as <- <-
    | None = _ => discriminate St
    | (if ?b then _ else _) = _ => destruct b
    | match ?x with _ => _ end = _ => destruct x
    end; cbn [f_reader f_in f_codec f_out f_writer w_reader w_codec length set_reader set_codec set_writer]; rewrite ?app_length; cbn [length]; try lia.
Qed.
Definition M1 (s : Sys) : nat := (m1 (s_enc s) + m1 (s_dec s))%nat.
Definition M2 (s : Sys) : nat := (m2 (s_enc s) + m2 (s_dec s) + length (s_events s))%nat.
Lemma sys_measure m g o capacity s a s' : by_itself a = true -> sys_step m g o capacity s a = Some s' -> (M1 s' < M1 s \/ M1 s' = M1 s /\ M2 s' < M2 s)%nat.
Proof.
  unfold M1, M2. destruct a; intros O St; try discriminate O; cbn [sys_step by_itself] in *.
  - destruct (flow_step _ _ _ (s_enc s) a) as [[f evs]|] eqn:F; [|discriminate]. injection St as <-. cbn [s_enc s_dec s_events]. apply flow_measure in F; [|exact O]. rewrite app_length. lia.
  - destruct (flow_step _ _ _ (s_dec s) a) as [[f evs]|] eqn:F; [|discriminate]. injection St as <-. cbn [s_enc s_dec s_events]. apply flow_measure in F; [|exact O]. rewrite app_length. lia.
  - destruct (s_events s); [discriminate|]. destruct (s_stats_up s); [|discriminate]. injection St as <-. cbn. lia.
Qed.
(*@C45
   What the gateway does by itself always comes to an end: from no state, reachable or not, is there an infinite sequence of its own steps. *)
Lemma gateway_settles_pf : forall m g o capacity s, Acc (fun s' s => exists a, by_itself a = true /\ sys_step m g o capacity s a = Some s') s.
Proof.
  intros m g o capacity. assert (X : forall n1 n2 s, (M1 s < n1)%nat -> (M2 s < n2)%nat -> Acc (fun s' s => exists a, by_itself a = true /\ sys_step m g o capacity s a = Some s') s).
  - induction n1 as [|n1 IH1]; intros n2; [intros s H; lia|]. induction n2 as [|n2 IH2]; intros s H1 H2; [lia|]. constructor. intros s' (a & O & St). apply sys_measure in St; [|exact O].
    destruct (Nat.eq_dec (M1 s') (M1 s)) as [E|E]; [apply IH2; lia|]. apply (IH1 (Datatypes.S (M2 s'))); lia.
  - intros s. apply (X (Datatypes.S (M1 s)) (Datatypes.S (M2 s))); lia.
Qed.

(** ** Where they end *)
Definition fgood {C S} (f : Flow C S) : Prop := f_codec f = CPanicked \/ (f_writer f = true /\ (forall l, f_reader f <> RReturned l) /\ codec_gone (f_codec f) = false).
Lemma fgood_step {C S} codec room (f f' : Flow C S) a evs : undisturbed_action a = true -> fgood f -> flow_step codec room false f a = Some (f', evs) -> fgood f'.
Proof.
  destruct f as [r fi c fo w seen hd sent]. unfold fgood. cbn [f_codec f_writer f_reader]. intros U G St.
  destruct a; try discriminate U; cbn [flow_step f_reader f_in f_codec f_out f_writer f_seen f_handled f_sent set_reader set_codec set_writer] in St;
    repeat match type of St with
    | Some (_, _) = Some (_, _) => injection St as <- <-
    | None = _ => discriminate St
    | (if ?b then _ else _) = _ => let E := fresh in destruct b eqn:E
    | match ?x with _ => _ end = _ => destruct x
    end; cbn [f_codec f_writer f_reader set_reader set_codec set_writer] in *; try (left; reflexivity); try exact G; try discriminate;
    (destruct G as [G|(G1 & G2 & G3)]; [try (left; exact G); try discriminate G|right; split; [try exact G1|split; [try exact G2; try (intros ? X; discriminate X)|try exact G3; try reflexivity]]]); try congruence; cbn in *; try congruence.
  all: try (destruct (codec _ _ _) as [? []|]; reflexivity).
  all: match goal with H : _ && _ = true |- _ => apply andb_prop in H; destruct H; congruence end.
Qed.
Definition sgood (s : Sys) : Prop := fgood (s_enc s) /\ fgood (s_dec s) /\ s_stats_up s = true /\ s_quit s = false.
Lemma sgood_step m g o capacity s a s' : undisturbed a = true -> sgood s -> sys_step m g o capacity s a = Some s' -> sgood s'.
Proof.
  intros U (G1 & G2 & G3 & G4) St. unfold sgood. destruct a; try discriminate U; cbn [sys_step undisturbed] in *.
  - rewrite G4 in St. destruct (flow_step _ _ _ (s_enc s) a) as [[f evs]|] eqn:F; [|discriminate]. injection St as <-. cbn. eauto using fgood_step.
  - rewrite G4 in St. destruct (flow_step _ _ _ (s_dec s) a) as [[f evs]|] eqn:F; [|discriminate]. injection St as <-. cbn. eauto using fgood_step.
  - destruct (s_events s); [discriminate|]. rewrite G3 in St. injection St as <-. cbn. auto.
  - rewrite G3 in St. injection St as <-. cbn. auto.
Qed.
Lemma sgood_run m g o capacity l : forall s s', sgood s -> Forall (fun a => undisturbed a = true) l -> sys_run m g o capacity s l = Some s' -> sgood s'.
Proof.
  induction l as [|a l IH]; intros s s' G F H; cbn [sys_run] in H; [now injection H as <-|]. destruct (sys_step m g o capacity s a) as [s1|] eqn:E; [|discriminate]. inversion F; subst. eapply IH; [|eassumption|exact H]. eapply sgood_step; eassumption.
Qed.
Lemma sgood_new : sgood sys_new.
Proof. assert (X : forall C S (st : S), fgood (@flow_new C S st)) by (intros; right; repeat split; discriminate). split; [apply X|]. split; [apply X|]. split; reflexivity. Qed.
(** a flow that has something to do can do something; and that does not bring it down when its events find room and its codec does not fail *)
Lemma flow_live {C S} codec (c0 : C) room quit (f : Flow C S) : fgood f -> f_codec f = CPanicked \/ flow_at_rest f \/
  exists a f' evs, own_action a = true /\ flow_step codec room quit f a = Some (f', evs) /\ (room = true -> f_codec f <> CWorking [] None -> f_codec f' <> CPanicked).
Proof.
  destruct f as [r fi c fo w seen hd sent]. unfold fgood, flow_at_rest. cbn [f_codec f_writer f_reader f_in f_out]. intros [G|(-> & G2 & G3)]; [left; exact G|right].
  destruct fo as [|d fo]; [|right; exists Transmit; do 2 eexists; split; [reflexivity|]; split; [reflexivity|]; cbn; intros _ _ X; rewrite X in G3; discriminate G3].
  destruct c as [st|[|e es] [[o st]|]|o st| |]; try discriminate G3.
  - destruct fi as [|d fi].
    + destruct r; [left; repeat split; now exists st| |now elim (G2 undelivered)]. right. exists Pass. do 2 eexists. split; [reflexivity|]. split; [reflexivity|]. cbn. discriminate.
    + right. exists (Take c0). do 2 eexists. split; [reflexivity|]. split; [reflexivity|]. cbn. intros _ _. destruct (codec c0 st d) as [? []|]; discriminate.
  - right. exists Finish. do 2 eexists. split; [reflexivity|]. split; [reflexivity|]. cbn. discriminate.
  - right. exists Finish. do 2 eexists. split; [reflexivity|]. split; [reflexivity|]. cbn. congruence.
  - right. exists Emit. cbn [flow_step f_codec]. destruct room; do 2 eexists; (split; [reflexivity|]); (split; [reflexivity|]); cbn; discriminate.
  - right. exists Emit. cbn [flow_step f_codec]. destruct room; do 2 eexists; (split; [reflexivity|]); (split; [reflexivity|]); cbn; discriminate.
  - right. exists Hand. do 2 eexists. split; [reflexivity|]. split; [reflexivity|]. cbn. discriminate.
Qed.
Lemma down_false s : gateway_down s = false <-> f_codec (s_enc s) <> CPanicked /\ f_codec (s_dec s) <> CPanicked.
Proof. unfold gateway_down. destruct (f_codec (s_enc s)), (f_codec (s_dec s)); split; intros; try easy; split; discriminate. Qed.
Lemma sys_live m g o capacity s : sgood s -> at_rest s \/ gateway_down s = true \/ exists a s', by_itself a = true /\ sys_step m g o capacity s a = Some s' /\
  (f_codec (s_enc s) <> CWorking [] None -> f_codec (s_dec s) <> CWorking [] None -> gateway_down s' = false).
Proof.
  intros (G1 & G2 & G3 & G4). destruct (gateway_down s) eqn:D; [auto|]. apply down_false in D. destruct D as [D1 D2].
  destruct (s_events s) as [|e t] eqn:Ee.
  2:{ right. right. exists Count. cbn [sys_step by_itself]. rewrite Ee, G3. eexists. split; [reflexivity|]. split; [reflexivity|]. intros _ _. now apply down_false. }
  assert (Rm : has_room s = true) by (unfold has_room; rewrite G3, Ee; reflexivity).
  destruct (flow_live (fun c st d => encode_buffer m g o st (c, d)) (fun _ => 0) (has_room s) (s_quit s) _ G1) as [X|[X1|(a & f' & evs & O & St & P)]]; [easy| |].
  2:{ right. right. exists (Enc a). cbn [sys_step by_itself]. rewrite St. eexists. split; [exact O|]. split; [reflexivity|]. intros W _. apply down_false. cbn [s_enc s_dec]. split; [now apply P|exact D2]. }
  destruct (flow_live (fun _ st d => decode_buffer m g o capacity st d) tt (has_room s) (s_quit s) _ G2) as [X|[X2|(a & f' & evs & O & St & P)]]; [easy| |].
  2:{ right. right. exists (Dec a). cbn [sys_step by_itself]. rewrite St. eexists. split; [exact O|]. split; [reflexivity|]. intros _ W. apply down_false. cbn [s_enc s_dec]. split; [exact D1|now apply P]. }
  left. split; [exact X1|]. split; [exact X2|exact Ee].
Qed.
Lemma stuck_rest m g o capacity s : sgood s -> (forall a, by_itself a = true -> sys_step m g o capacity s a = None) -> at_rest s \/ gateway_down s = true.
Proof. intros G H. destruct (sys_live m g o capacity s G) as [X|[X|(a & s' & B & St & _)]]; [auto|auto|]. rewrite (H a B) in St. discriminate. Qed.
Lemma own_undisturbed a : by_itself a = true -> undisturbed a = true.
Proof. destruct a as [a|a| | | |]; cbn; try discriminate; try reflexivity; destruct a; (discriminate || reflexivity). Qed.
(*@C45
   As long as nobody tells the gateway to stop and no socket fails: when it can do nothing by itself any more, then everything it had to do is done - no
   datagram waits anywhere and no event is uncounted - or a codec task has panicked. There is no deadlock, whatever the schedule was. *)
Lemma gateway_no_deadlock_pf : forall m g o capacity l s, Forall (fun a => undisturbed a = true) l -> sys_run m g o capacity sys_new l = Some s ->
  (forall a, by_itself a = true -> sys_step m g o capacity s a = None) -> at_rest s \/ gateway_down s = true.
Proof. intros m g o capacity l s F R. apply stuck_rest. eapply sgood_run; [exact sgood_new|exact F|exact R]. Qed.

(*@C45
   So, undisturbed, the gateway can always go on by itself until it is at rest, or down. *)
Lemma gateway_comes_to_rest_pf : forall m g o capacity l s, Forall (fun a => undisturbed a = true) l -> sys_run m g o capacity sys_new l = Some s ->
  exists l' s', Forall (fun a => by_itself a = true) l' /\ sys_run m g o capacity s l' = Some s' /\ (at_rest s' \/ gateway_down s' = true).
Proof.
  intros m g o capacity l s F R. pose proof (sgood_run m g o capacity l _ _ sgood_new F R) as G. clear F R l. pose proof (gateway_settles_pf m g o capacity s) as A. induction A as [s _ IH].
  destruct (sys_live m g o capacity s G) as [D|[D|(a & s' & B & St & _)]]; [exists [], s; repeat split; auto|exists [], s; repeat split; auto|].
  destruct (IH s' (ex_intro _ a (conj B St))) as (l' & s2 & F2 & R2 & E2); [eapply sgood_step; [apply own_undisturbed; exact B|exact G|exact St]|].
  exists (a :: l'), s2. split; [now constructor|]. split; [cbn [sys_run]; rewrite St; exact R2|exact E2].
Qed.

(** ** What brings it down *)
Lemma flow_panics {C S} codec room quit (f f' : Flow C S) a evs : flow_step codec room quit f a = Some (f', evs) -> f_codec f <> CPanicked -> f_codec f' = CPanicked ->
  (a = Emit /\ room = false) \/ f_codec f = CWorking [] None \/ f_writer f = false.
Proof.
  destruct f as [r fi c fo w seen hd sent]. cbn [f_codec f_writer]. intros St N P.
  destruct a; cbn [flow_step f_reader f_in f_codec f_out f_writer f_seen f_handled f_sent set_reader set_codec set_writer] in St;
    repeat match type of St with
    | Some (_, _) = Some (_, _) => injection St as <- <-
    | None = _ => discriminate St
    | (if ?b then _ else _) = _ => let E := fresh in destruct b eqn:E
    | match ?x with _ => _ end = _ => destruct x
    end; cbn [f_codec f_writer f_reader set_reader set_codec set_writer] in *; try discriminate; try congruence; auto.
  - destruct (codec _ _ _) as [? []|]; discriminate.
  - right. right. now destruct w.
Qed.
(** the datagram at which a codec fails *)
Lemma alone_none {C S} (codec : C -> S -> list Z -> trace (list Z * S)) init h i st outs : alone codec init h = Some (outs, st) -> alone_step codec st i = None -> alone codec init (h ++ [i]) = None.
Proof. unfold alone. intros A N. rewrite run_snoc, A, N. reflexivity. Qed.
(*@C46
   What can bring the gateway down: in any reachable state, a step at which a codec task panics is one of three. An event finds the channel full (50 events
   waiting) or the statistics task stopped; or the codec fails on the datagram it took, as it does by itself; or the writer has stopped. *)
Lemma gateway_down_causes_pf : forall m g o capacity s a s', reachable m g o capacity s -> gateway_down s = false -> sys_step m g o capacity s a = Some s' -> gateway_down s' = true ->
  ((a = Enc Emit \/ a = Dec Emit) /\ (zlen (s_events s) = 50 \/ s_stats_up s = false)) \/
  encoder_alone m g o (f_handled (s_enc s)) = None \/ decoder_alone m g o capacity (f_handled (s_dec s)) = None \/
  f_writer (s_enc s) = false \/ f_writer (s_dec s) = false.
Proof.
  intros m g o capacity s a s' R D St D'. apply sinv_reachable in R. destruct R as ([F1 _] & _ & [F2 _] & _ & _ & _ & Q). apply down_false in D. destruct D as [D1 D2].
  assert (Full : has_room s = false -> zlen (s_events s) = 50 \/ s_stats_up s = false).
  { unfold has_room. destruct (s_stats_up s); [|auto]. cbn [andb]. rewrite Z.ltb_ge. change event_channel with 50 in *. intros; left; lia. }
  destruct a; cbn [sys_step] in St.
  - destruct (flow_step _ _ _ (s_enc s) a) as [[f evs]|] eqn:F; [|discriminate]. injection St as <-. assert (P : f_codec f = CPanicked).
    { unfold gateway_down in D'. cbn [s_enc s_dec] in D'. destruct (f_codec f), (f_codec (s_dec s)); try discriminate; try reflexivity; now elim D2. }
    destruct (flow_panics _ _ _ _ _ _ _ F D1 P) as [[-> X]|[X|X]]; [auto| |auto]. right. left. destruct F1 as (_ & _ & _ & _ & H5). rewrite X in H5. destruct H5 as (h & i & st & -> & A & N).
    rewrite <- alone_enc. eapply alone_none; eassumption.
  - destruct (flow_step _ _ _ (s_dec s) a) as [[f evs]|] eqn:F; [|discriminate]. injection St as <-. assert (P : f_codec f = CPanicked).
    { unfold gateway_down in D'. cbn [s_enc s_dec] in D'. destruct (f_codec (s_enc s)), (f_codec f); try discriminate; try reflexivity; now elim D1. }
    destruct (flow_panics _ _ _ _ _ _ _ F D2 P) as [[-> X]|[X|X]]; [auto| |auto 6]. right. right. left. destruct F2 as (_ & _ & _ & _ & H5). rewrite X in H5. destruct H5 as (h & i & st & -> & A & N).
    rewrite <- alone_dec. eapply alone_none; eassumption.
  - destruct (s_events s); [discriminate|]. destruct (s_stats_up s); [|discriminate]. injection St as <-. exfalso. assert (X : gateway_down s = false) by now apply down_false. unfold gateway_down in *. cbn in D'. congruence.
  - destruct (s_stats_up s); [|discriminate]. injection St as <-. exfalso. assert (X : gateway_down s = false) by now apply down_false. unfold gateway_down in *. cbn in D'. congruence.
  - injection St as <-. exfalso. assert (X : gateway_down s = false) by now apply down_false. unfold gateway_down in *. cbn in D'. congruence.
  - destruct (_ && _); [|discriminate]. injection St as <-. exfalso. assert (X : gateway_down s = false) by now apply down_false. unfold gateway_down in *. cbn in D'. congruence.
Qed.
(** ** A schedule on which everything is delivered *)
Lemma run_none_app {S I O : Type} (f : S -> I -> option (O * S)) l l2 : forall st, run f st l = None -> run f st (l ++ l2) = None.
Proof. induction l as [|i l IH]; intros st H; cbn [run app] in *; [discriminate|]. destruct (f st i) as [[c s]|]; [|reflexivity]. destruct (run f s l) as [[]|] eqn:E; [discriminate|]. now rewrite (IH _ E). Qed.
Lemma flow_seen {C S} codec room quit (f f' : Flow C S) a evs : own_action a = true -> flow_step codec room quit f a = Some (f', evs) -> f_seen f' = f_seen f.
Proof.
  destruct f as [r fi c fo w seen hd sent]. intros O St.
  destruct a; try discriminate O; cbn [flow_step f_reader f_in f_codec f_out f_writer f_seen f_handled f_sent set_reader set_codec set_writer] in St;
    repeat match type of St with
    | Some (_, _) = Some (_, _) => injection St as <- <-
    | None = _ => discriminate St
    | (if ?b then _ else _) = _ => let E := fresh in destruct b eqn:E
    | match ?x with _ => _ end = _ => destruct x
    end; reflexivity.
Qed.
Lemma sys_seen m g o capacity s a s' : by_itself a = true -> sys_step m g o capacity s a = Some s' -> f_seen (s_enc s') = f_seen (s_enc s) /\ f_seen (s_dec s') = f_seen (s_dec s).
Proof.
  intros B St. destruct a; try discriminate B; cbn [sys_step by_itself] in *.
  - destruct (flow_step _ _ _ _ a) as [[f evs]|] eqn:F; [|discriminate]. injection St as <-. cbn. split; [eapply flow_seen; eassumption|reflexivity].
  - destruct (flow_step _ _ _ _ a) as [[f evs]|] eqn:F; [|discriminate]. injection St as <-. cbn. split; [reflexivity|eapply flow_seen; eassumption].
  - destruct (s_events s); [discriminate|]. destruct (s_stats_up s); [|discriminate]. injection St as <-. cbn. auto.
Qed.
Lemma combine_map {A B} (l : list (A * B)) : combine (map fst l) (map snd l) = l.
Proof. induction l as [|[a b] l IH]; [reflexivity|]. cbn. now rewrite IH. Qed.
Lemma combine_app {A B} (a a2 : list A) (b b2 : list B) : length a = length b -> combine (a ++ a2) (b ++ b2) = combine a b ++ combine a2 b2.
Proof. revert b. induction a as [|x a IH]; intros [|y b] L; try discriminate L; [reflexivity|]. cbn. rewrite IH; [reflexivity|]. now injection L. Qed.
(*@C45
   Undisturbed, and if the encoder does not fail on the datagrams read so far (at whatever time it handles them), the gateway can, by itself, come to rest with
   everything handled and sent (see C43), whatever the schedule was up to now, unless it is down already. *)
Lemma gateway_can_deliver_pf : forall m g o capacity l s, (forall buf, 12 <= capacity buf) -> Forall (fun a => undisturbed a = true) l -> sys_run m g o capacity sys_new l = Some s -> gateway_down s = false ->
  (forall times, length times = length (f_seen (s_enc s)) -> encoder_alone m g o (combine times (f_seen (s_enc s))) <> None) ->
  exists l' s', Forall (fun a => by_itself a = true) l' /\ sys_run m g o capacity s l' = Some s' /\ at_rest s' /\ gateway_down s' = false /\
    f_seen (s_enc s') = f_seen (s_enc s) /\ f_seen (s_dec s') = f_seen (s_dec s).
Proof.
  intros m g o capacity l s C F R D H. pose proof (sgood_run m g o capacity l _ _ sgood_new F R) as G. pose proof (sinv_reachable m g o capacity s (ex_intro _ l R)) as I. clear F R l.
  pose proof (gateway_settles_pf m g o capacity s) as A. induction A as [s _ IH].
  destruct (sys_live m g o capacity s G) as [X|[X|(a & s' & B & St & P)]]; [exists [], s; repeat split; auto; apply X|congruence|].
  assert (W1 : f_codec (s_enc s) <> CWorking [] None).
  { intros X. destruct I as ([(F1 & _ & _ & _ & H5) _] & _). rewrite X in H5. destruct H5 as (h & i & st & Eh & Al & N). 
    pose proof (alone_none _ _ _ _ _ _ Al N) as Nn. rewrite <- Eh in Nn. rewrite alone_enc in Nn.
    apply (H (map fst (f_handled (s_enc s)) ++ repeat (fun _ => 0) (length (f_in (s_enc s) ++ held (f_reader (s_enc s)))))); [rewrite F1, !app_length, repeat_length, !map_length, ?app_length; lia|].
    rewrite F1, combine_app, combine_map by (now rewrite !map_length). now apply run_none_app. }
  assert (W2 : f_codec (s_dec s) <> CWorking [] None).
  { intros X. destruct I as (_ & _ & [(_ & _ & _ & _ & H5) _] & _). rewrite X in H5. destruct H5 as (h & i & st & Eh & Al & N). unfold alone_step in N.
    destruct (decode_buffer_all m g o capacity st (snd i) C) as (cs & out & E & _). cbn beta in N. rewrite E in N. discriminate. }
  destruct (sys_seen _ _ _ _ _ _ _ B St) as [S1 S2].
  destruct (IH s' (ex_intro _ a (conj B St)) (P W1 W2)) as (l' & s2 & F2 & R2 & E2 & D2 & T1 & T2).
  - rewrite S1. exact H.
  - eapply sgood_step; [apply own_undisturbed; exact B|exact G|exact St].
  - eapply sinv_step; eassumption.
  - exists (a :: l'), s2. split; [now constructor|]. split; [cbn [sys_run]; rewrite St; exact R2|]. rewrite T1, T2, S1, S2. auto.
Qed.

(** ** Too many events *)
Lemma emits_down m g o capacity n : forall s evs r, s_stats_up s = true -> zlen (s_events s) = 50 - Z.of_nat n -> (n < length evs)%nat -> f_codec (s_enc s) = CWorking evs r ->
  exists s', sys_run m g o capacity s (repeat (Enc Emit) (S n)) = Some s' /\ gateway_down s' = true.
Proof.
  induction n as [|n IH]; intros s evs r U Q L W; (destruct evs as [|e evs]; [cbn in L; lia|]).
  - cbn [repeat sys_run sys_step flow_step]. rewrite W. assert (Rm : has_room s = false) by (unfold has_room; rewrite U; cbn [andb]; apply Z.ltb_ge; change event_channel with 50; lia). rewrite Rm. eexists. split; [reflexivity|]. reflexivity.
  - change (repeat (Enc Emit) (S (S n))) with (Enc Emit :: repeat (Enc Emit) (S n)). cbn [sys_run]. cbn [sys_step flow_step]. rewrite W. assert (Rm : has_room s = true) by (unfold has_room; rewrite U; cbn [andb]; apply Z.ltb_lt; change event_channel with 50; lia). rewrite Rm.
    apply (IH _ evs r); cbn [s_stats_up s_events s_enc f_codec set_codec]; [exact U|rewrite zlen_app; change (zlen [e]) with 1; lia|cbn in L; lia|reflexivity].
Qed.
(*@C46
   The first of the causes is within reach of anybody who can send the gateway a datagram: whenever the encoder makes more than 50 events of a datagram, which
   happens for 50 PDUs of any kind, there is a schedule, undisturbed, on which the gateway is down after that datagram. *)
Lemma gateway_overrun_pf : forall m g o capacity c d, 
  (50 < length (match encode_buffer m g o encoder_new (c, firstn reader_buffer d) with Done evs _ => evs | Died evs => evs end))%nat ->
  exists l s, Forall (fun a => undisturbed a = true) l /\ sys_run m g o capacity sys_new l = Some s /\ gateway_down s = true.
Proof.
  intros m g o capacity c d L. set (w := match encode_buffer m g o encoder_new (c, firstn reader_buffer d) with Done evs (o, st') => CWorking evs (Some (o, st')) | Died evs => CWorking evs None end).
  assert (exists evs r, w = CWorking evs r /\ (50 < length evs)%nat) as (evs & r & W & L2).
  { unfold w. destruct (encode_buffer m g o encoder_new _) as [evs [o2 st2]|evs]; cbn in L; do 2 eexists; (split; [reflexivity|exact L]). }
  destruct (emits_down m g o capacity 50 (MkSys (MkFlow RWaiting [] w [] true [firstn reader_buffer d] [(c, firstn reader_buffer d)] []) (flow_new dec_state_new) [] stats_zero true false [] []) evs r eq_refl eq_refl L2 W) as (s & R & D).
  exists ([Enc (Receive false d); Enc Pass; Enc (Take c)] ++ repeat (Enc Emit) 51), s. split; [repeat constructor|]. split; [exact R|exact D].
Qed.
(*@C46
   The property is refuted: a single datagram of 600 octets, 50 header-only PDUs, brings the gateway down on some schedule, although the encoder by itself
   handles it. *)
Lemma gateway_survives_refuted_pf : forall g o capacity c, exists d l s, zlen d = 600 /\ encoder_alone Checked g o [(c, d)] <> None /\
  Forall (fun a => undisturbed a = true) l /\ sys_run Checked g o capacity sys_new l = Some s /\ gateway_down s = true.
Proof.
  intros g o capacity c. exists (concat (repeat other_octets 50)).
  assert (exists evs out e', encode_buffer Checked g o encoder_new (c, concat (repeat other_octets 50)) = Done evs (out, e') /\ length evs = 52%nat) as (evs & out & e' & E & L).
  { do 3 eexists. split; [enter|]. vm_compute. reflexivity. }
  destruct (gateway_overrun_pf Checked g o capacity c (concat (repeat other_octets 50))) as (l & s & F & R & D).
  - change (firstn reader_buffer (concat (repeat other_octets 50))) with (concat (repeat other_octets 50)). rewrite E, L. lia.
  - exists l, s. split; [reflexivity|]. split; [|auto]. unfold encoder_alone. cbn [run]. rewrite E. discriminate.
Qed.
Lemma sys_run_app m g o capacity l l2 : forall s, sys_run m g o capacity s (l ++ l2) = match sys_run m g o capacity s l with Some s' => sys_run m g o capacity s' l2 | None => None end.
Proof. induction l as [|a l IH]; intros s; cbn [app sys_run]; [reflexivity|]. destruct (sys_step m g o capacity s a); [apply IH|reflexivity]. Qed.
Lemma sys_seen_grows m g o capacity s a s' : sys_step m g o capacity s a = Some s' -> exists more, f_seen (s_enc s') = f_seen (s_enc s) ++ more.
Proof.
  intros St. destruct a; cbn [sys_step] in *.
  - destruct (flow_step _ _ _ _ a) as [[f evs]|] eqn:F; [|discriminate]. injection St as <-. cbn [s_enc]. destruct (s_enc s) as [r fi c fo w seen hd sent].
    destruct a; cbn [flow_step f_reader f_in f_codec f_out f_writer f_seen f_handled f_sent set_reader set_codec set_writer] in F;
    repeat match type of F with
    | Some (_, _) = Some (_, _) => injection F as <- <-
    | None = _ => discriminate F
    | (if ?b then _ else _) = _ => let E := fresh in destruct b eqn:E
    | match ?x with _ => _ end = _ => destruct x
    end; cbn [f_seen set_reader set_codec set_writer]; first [exists []; now rewrite app_nil_r|eexists; reflexivity].
  - destruct (flow_step _ _ _ _ a) as [[f evs]|] eqn:F; [|discriminate]. injection St as <-. exists []. now rewrite app_nil_r.
  - destruct (s_events s); [discriminate|]. destruct (s_stats_up s); [|discriminate]. injection St as <-. exists []. now rewrite app_nil_r.
  - destruct (s_stats_up s); [|discriminate]. injection St as <-. exists []. now rewrite app_nil_r.
  - injection St as <-. exists []. now rewrite app_nil_r.
  - destruct (_ && _); [|discriminate]. injection St as <-. exists []. now rewrite app_nil_r.
Qed.
Lemma decoder_never_fails m g o capacity (C : forall buf, 12 <= capacity buf) (l : list (unit * list Z)) : forall st, run (fun st i => match decode_buffer m g o capacity st (snd i) with Done _ r => Some r | Died _ => None end) st l <> None.
Proof.
  induction l as [|i l IH]; intros st; cbn [run]; [discriminate|]. destruct (decode_buffer_all m g o capacity st (snd i) C) as (cs & out & E & _). rewrite E.
  specialize (IH st). destruct (run _ st l) as [[]|]; [discriminate|exact IH].
Qed.
(*@C46
   Otherwise the gateway stays up: undisturbed, if the event channel is never full, and if the encoder does not fail on the datagrams read, no task panics. *)
Lemma gateway_survives_pf : forall m g o capacity l s, (forall buf, 12 <= capacity buf) -> Forall (fun a => undisturbed a = true) l -> sys_run m g o capacity sys_new l = Some s ->
  (forall l1 l2 s1, l = l1 ++ l2 -> sys_run m g o capacity sys_new l1 = Some s1 -> zlen (s_events s1) < 50) ->
  (forall times, length times = length (f_seen (s_enc s)) -> encoder_alone m g o (combine times (f_seen (s_enc s))) <> None) -> gateway_down s = false.
Proof.
  intros m g o capacity l s C. revert s. induction l as [|a l IH] using rev_ind; intros s F R Q H; [injection R as <-; reflexivity|].
  apply Forall_app in F. destruct F as [F Fa]. inversion Fa as [|? ? Ua _]; subst. clear Fa. rewrite sys_run_app in R. destruct (sys_run m g o capacity sys_new l) as [s0|] eqn:R0; [|discriminate].
  cbn [sys_run] in R. destruct (sys_step m g o capacity s0 a) as [s1|] eqn:St; [|discriminate]. injection R as <-.
  destruct (sys_seen_grows _ _ _ _ _ _ _ St) as (more & Em).
  assert (H0 : forall times, length times = length (f_seen (s_enc s0)) -> encoder_alone m g o (combine times (f_seen (s_enc s0))) <> None).
  { intros times Lt N. apply (H (times ++ repeat (fun _ => 0) (length more))); [rewrite Em, !app_length, repeat_length; lia|]. rewrite Em, combine_app by exact Lt. now apply run_none_app. }
  assert (D0 : gateway_down s0 = false). { apply IH; [exact F|reflexivity| |exact H0]. intros l1 l2 s2 El. apply (Q l1 (l2 ++ [a])). now rewrite El, <- app_assoc. }
  pose proof (sgood_run m g o capacity l _ _ sgood_new F R0) as (G1 & G2 & G3 & _). pose proof (ex_intro _ l R0 : reachable m g o capacity s0) as Rc.
  pose proof (Q l [a] s0 eq_refl R0) as Q0. clear IH Q.
  assert (D0' := D0). apply down_false in D0'. destruct D0' as [D1 D2].
  destruct (gateway_down s1) eqn:D; [|reflexivity]. exfalso.
  destruct (gateway_down_causes_pf _ _ _ _ _ _ _ Rc D0 St D) as [[_ [X|X]]|[X|[X|[X|X]]]]; [lia|congruence| | | |].
  - pose proof (sinv_reachable _ _ _ _ _ Rc) as ([(F1 & _) _] & _).
    apply (H0 (map fst (f_handled (s_enc s0)) ++ repeat (fun _ => 0) (length (f_in (s_enc s0) ++ held (f_reader (s_enc s0)))))); [rewrite F1, !app_length, repeat_length, !map_length, ?app_length; lia|].
    rewrite F1, combine_app, combine_map by (now rewrite !map_length). now apply run_none_app.
  - apply (decoder_never_fails m g o capacity C (f_handled (s_dec s0)) dec_state_new X).
  - destruct G1 as [G|(G & _)]; [now apply D1|congruence].
  - destruct G2 as [G|(G & _)]; [now apply D2|congruence].
Qed.
Definition holding (e : Encoder) (d : list Z) : Sys := MkSys (MkFlow (RHolding d) [] (CWaiting e) [] true [d] [] []) (flow_new dec_state_new) [] stats_zero true false [] [].
Lemma start_run m g o capacity d : sys_run m g o capacity sys_new [Enc (Receive false d)] = Some (holding encoder_new (firstn reader_buffer d)).
Proof. unfold sys_new, holding. generalize encoder_new. intros e. reflexivity. Qed.
Lemma holding_up e d : gateway_down (holding e d) = false. Proof. reflexivity. Qed.
Lemma holding_seen e d : f_seen (s_enc (holding e d)) = [d]. Proof. reflexivity. Qed.
Lemma stop_short : firstn reader_buffer (stop_octets 255) = stop_octets 255. Proof. vm_compute. reflexivity. Qed.
Lemma encoder_alone_one m g o c d : encoder_alone m g o [(c, d)] = match encode_buffer m g o encoder_new (c, d) with Done _ (out, e) => Some ([out], e) | Died _ => None end.
Proof. unfold encoder_alone. generalize encoder_new. intros e. cbn [run]. destruct (encode_buffer m g o e (c, d)) as [? []|]; reflexivity. Qed.
Lemma after_stop_alone g o c : encoder_alone Checked g o [(c, stop_octets 255)] <> None.
Proof. rewrite encoder_alone_one. destruct (after_stop_run g o c) as (evs & out & H). rewrite H. discriminate. Qed.
Lemma alone_one_out m g o c d outs e : encoder_alone m g o [(c, d)] = Some (outs, e) -> zlen outs = 1.
Proof. rewrite encoder_alone_one. destruct (encode_buffer m g o encoder_new (c, d)) as [? [o1 e1]|]; [|discriminate]. intros A. injection A as <- _. reflexivity. Qed.
(*@ex*)
Example gateway_rest_example : forall g o capacity, (forall buf, 12 <= capacity buf) -> exists l s, Forall (fun a => undisturbed a = true) l /\ sys_run Checked g o capacity sys_new l = Some s /\
  at_rest s /\ gateway_down s = false /\ f_seen (s_enc s) = [stop_octets 255] /\ zlen (f_sent (s_enc s)) = 1.
Proof.
  intros g o capacity C. pose proof (start_run Checked g o capacity (stop_octets 255)) as St. rewrite stop_short in St.
  assert (U : Forall (fun a => undisturbed a = true) [Enc (Receive false (stop_octets 255))]) by (constructor; [reflexivity|constructor]).
  destruct (gateway_can_deliver_pf Checked g o capacity _ _ C U St (holding_up _ _)) as (l & s & F & R & Rest & D & S1 & S2).
  - rewrite holding_seen. intros [|c [|]] L; try discriminate L. exact (after_stop_alone g o c).
  - exists ([Enc (Receive false (stop_octets 255))] ++ l), s. assert (Ru : sys_run Checked g o capacity sys_new ([Enc (Receive false (stop_octets 255))] ++ l) = Some s) by (rewrite sys_run_app, St; exact R).
    split; [apply Forall_app; split; [exact U|]; eapply Forall_impl; [|exact F]; exact own_undisturbed|]. split; [exact Ru|]. split; [exact Rest|]. split; [exact D|]. rewrite holding_seen in S1. split; [exact S1|].
    destruct (gateway_order_at_rest_pf Checked g o capacity s (ex_intro _ _ Ru) Rest) as [(times & e & Lt & A) _]. rewrite S1 in Lt, A. destruct times as [|c [|]]; try discriminate Lt.
    exact (alone_one_out _ _ _ _ _ _ _ A).
Qed.

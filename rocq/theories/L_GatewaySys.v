(** * C43, C44: the gateway as a whole, under every schedule *)
From Coq Require Import ZArith List Lia Bool.
From Verif Require Import Base CdisBase DisCommon DisHeader DisWarfare DisPdu DisPacket CdisRecords CdisBodies1 CdisBodies2 CdisIff CdisPdu SpecCdisPdu L_CdisPdu CdisCodec1 CdisCodec2 CdisCodec3 SpecCodec L_CodecDec Gateway SpecGateway L_Stats L_Gateway GatewaySys SpecGatewaySys.
Import ListNotations. Open Scope Z_scope.

(** ** One flow *)
Section OneFlow.
  Context {C S : Type} (codec : C -> S -> list Z -> trace (list Z * S)) (init : S) (mine : Event -> bool).
  Definition alone_step (st : S) (i : C * list Z) : option (list Z * S) := match codec (fst i) st (snd i) with Done _ r => Some r | Died _ => None end.
  Definition alone (l : list (C * list Z)) : option (list (list Z) * S) := run alone_step init l.
  Definition held (r : Reader) : list (list Z) := match r with RWaiting => [] | RHolding d => [d] | RReturned l => l end.
  Definition finv (f : Flow C S) : Prop :=
    f_seen f = map snd (f_handled f) ++ f_in f ++ held (f_reader f) /\ zlen (f_in f) <= data_channel /\ zlen (f_out f) <= data_channel /\ zlen (held (f_reader f)) <= 1 /\
    match f_codec f with
    | CWaiting st => alone (f_handled f) = Some (f_sent f ++ f_out f, st)
    | CHolding o st | CWorking _ (Some (o, st)) => alone (f_handled f) = Some (f_sent f ++ f_out f ++ [o], st)
    | CWorking _ None => exists h i st, f_handled f = h ++ [i] /\ alone h = Some (f_sent f ++ f_out f, st) /\ alone_step st i = None
    | CReturned => exists st, alone (f_handled f) = Some (f_sent f ++ f_out f, st)
    | CPanicked => exists h t st rest, f_handled f = h ++ t /\ zlen t + zlen rest <= 1 /\ alone h = Some (f_sent f ++ f_out f ++ rest, st)
    end.
  Lemma run_snoc st l i : run alone_step st (l ++ [i]) = match run alone_step st l with
    | Some (os, st') => match alone_step st' i with Some (o, st'') => Some (os ++ [o], st'') | None => None end | None => None end.
  Proof.
    revert st. induction l as [|j l IH]; intros st; cbn [app run].
    - destruct (alone_step st i) as [[o st']|]; reflexivity.
    - destruct (alone_step st j) as [[o st']|]; [|reflexivity]. rewrite IH. destruct (run alone_step st' l) as [[os s2]|]; [|reflexivity]. destruct (alone_step s2 i) as [[o2 s3]|]; reflexivity.
  Qed.
  Lemma finv_step room quit f a f' evs : finv f -> flow_step codec room quit f a = Some (f', evs) -> finv f'.
  Proof.
    destruct f as [r fi c fo w seen hd sent]. unfold finv. cbn [f_reader f_in f_codec f_out f_writer f_seen f_handled f_sent]. intros (H1 & H2 & H3 & H4 & H5) St.
    destruct a; cbn [flow_step f_reader f_in f_codec f_out f_writer f_seen f_handled f_sent set_reader set_codec set_writer] in St.
    - destruct r; try discriminate St. destruct own; injection St as <- <-; cbn [f_reader f_in f_codec f_out f_writer f_seen f_handled f_sent]; [auto|].
      split; [rewrite H1; cbn [held]; now rewrite app_nil_r, app_assoc|]. auto. split; [exact H2|]. split; [exact H3|]. split; [cbv; discriminate|exact H5].
    - destruct r; try discriminate St. injection St as <- <-. cbn. auto.
    - destruct r; try discriminate St. destruct (codec_gone c) eqn:G; [injection St as <- <-; cbn; auto|]. destruct (Z.ltb_spec (zlen fi) data_channel); [|discriminate St].
      injection St as <- <-. cbn [f_reader f_in f_codec f_out f_writer f_seen f_handled f_sent held] in *. split; [now rewrite H1, app_nil_r|]. split; [rewrite zlen_app; unfold zlen in *; cbn [length]; lia|]. split; [exact H3|]. split; [cbv; discriminate|exact H5].
    - destruct c; try discriminate St. destruct fi as [|d fi]; [discriminate St|]. injection St as <- <-. cbn [f_reader f_in f_codec f_out f_writer f_seen f_handled f_sent].
      split; [rewrite H1, map_app, <- app_assoc; reflexivity|]. split; [unfold zlen in *; cbn [length] in H2; lia|]. split; [exact H3|]. split; [exact H4|].
      destruct (codec c0 st d) as [e [o st']|e] eqn:E.
      + unfold alone. rewrite run_snoc. fold (alone hd). rewrite H5. unfold alone_step. cbn [fst snd]. rewrite E. now rewrite <- app_assoc.
      + exists hd, (c0, d), st. split; [reflexivity|]. split; [exact H5|]. unfold alone_step. cbn [fst snd]. now rewrite E.
    - destruct c as [|[|e es] res| | |]; try discriminate St. destruct room; injection St as <- <-; cbn [f_reader f_in f_codec f_out f_writer f_seen f_handled f_sent]; (split; [exact H1|]; split; [exact H2|]; split; [exact H3|]; split; [exact H4|]).
      + destruct res as [[o st]|]; exact H5.
      + destruct res as [[o st]|]; [exists hd, [], st, [o]|destruct H5 as (h & i & st & E & A & _); exists h, [i], st, []]; rewrite ?app_nil_r; (split; [first [reflexivity|exact E]|]); (split; [cbv; discriminate|]); assumption.
    - destruct c as [|[|e es] [[o st]|]| | |]; try discriminate St; injection St as <- <-; cbn [f_reader f_in f_codec f_out f_writer f_seen f_handled f_sent]; (split; [exact H1|]; split; [exact H2|]; split; [exact H3|]; split; [exact H4|]).
      + exact H5.
      + destruct H5 as (h & i & st & E & A & _); exists h, [i], st, []; rewrite ?app_nil_r; (split; [exact E|]); (split; [cbv; discriminate|]); assumption.
    - destruct c; try discriminate St. destruct (negb w); [|destruct (Z.ltb_spec (zlen fo) data_channel); [|discriminate St]]; injection St as <- <-; cbn [f_reader f_in f_codec f_out f_writer f_seen f_handled f_sent]; (split; [exact H1|]; split; [exact H2|]).
      + split; [exact H3|]. split; [exact H4|]. exists hd, [], st, [d]. rewrite app_nil_r. split; [reflexivity|]. split; [cbv; discriminate|exact H5].
      + split; [rewrite zlen_app; unfold zlen in *; cbn [length]; lia|]. split; [exact H4|exact H5].
    - destruct fo as [|d fo]; [discriminate St|]. destruct w; [|discriminate St]. injection St as <- <-. cbn [f_reader f_in f_codec f_out f_writer f_seen f_handled f_sent].
      split; [exact H1|]. split; [exact H2|]. split; [unfold zlen in *; cbn [length] in H3; lia|]. split; [exact H4|].
      assert (A : forall y, (sent ++ [d]) ++ y = sent ++ d :: y) by (intros y; now rewrite <- app_assoc).
      destruct c as [st|e [[o st]|]|o st| |]; rewrite ?A; try exact H5.
      destruct H5 as (h & t & st & rest & E & L & B). exists h, t, st, rest. rewrite A. auto.
    - destruct fo as [|d fo]; [discriminate St|]. destruct w; [|discriminate St]. injection St as <- <-. cbn. auto.
    - destruct fo as [|d fo]; [|discriminate St]. destruct (w && codec_gone c); [|discriminate St]. injection St as <- <-. cbn. auto.
    - destruct r; try discriminate St. destruct quit; [|discriminate St]. injection St as <- <-. cbn. auto.
    - destruct c; try discriminate St. destruct quit; [|discriminate St]. injection St as <- <-. cbn. split; [exact H1|]. split; [exact H2|]. split; [exact H3|]. split; [exact H4|]. now exists st.
    - destruct (quit && w); [|discriminate St]. injection St as <- <-. cbn. auto.
  Qed.
  Lemma finv_new : finv (flow_new init).
  Proof. unfold finv. cbn. repeat split; cbv; discriminate. Qed.
  (** what the invariant says of the datagrams *)
  Lemma finv_order f : finv f -> exists waiting, f_seen f = map snd (f_handled f) ++ waiting /\ zlen waiting <= 21 /\
    exists done last outs st late, f_handled f = done ++ last /\ zlen last <= 1 /\ alone done = Some (outs, st) /\ outs = f_sent f ++ late /\ zlen late <= 21.
  Proof.
    intros (H1 & H2 & H3 & H4 & H5). change data_channel with 20 in *. eexists. split; [exact H1|]. split; [rewrite zlen_app; lia|].
    destruct (f_codec f) as [st|e [[o st]|]|o st| |].
    - exists (f_handled f), [], (f_sent f ++ f_out f), st, (f_out f). rewrite app_nil_r. repeat split; [cbv; discriminate|exact H5|lia].
    - exists (f_handled f), [], (f_sent f ++ f_out f ++ [o]), st, (f_out f ++ [o]). rewrite app_nil_r. repeat split; [cbv; discriminate|exact H5|rewrite zlen_app; unfold zlen in *; cbn [length]; lia].
    - destruct H5 as (h & i & st & E & A & _). exists h, [i], (f_sent f ++ f_out f), st, (f_out f). repeat split; [exact E|cbv; discriminate|exact A|lia].
    - exists (f_handled f), [], (f_sent f ++ f_out f ++ [o]), st, (f_out f ++ [o]). rewrite app_nil_r. repeat split; [cbv; discriminate|exact H5|rewrite zlen_app; unfold zlen in *; cbn [length]; lia].
    - destruct H5 as (st & A). exists (f_handled f), [], (f_sent f ++ f_out f), st, (f_out f). rewrite app_nil_r. repeat split; [cbv; discriminate|exact A|lia].
    - destruct H5 as (h & t & st & rest & E & L & A). exists h, t, (f_sent f ++ f_out f ++ rest), st, (f_out f ++ rest). pose proof (zlen_nonneg t). pose proof (zlen_nonneg rest). repeat split; [exact E|lia|exact A|rewrite zlen_app; lia].
  Qed.
  Lemma finv_rest f : finv f -> flow_at_rest f -> f_seen f = map snd (f_handled f) /\ exists st, f_codec f = CWaiting st /\ alone (f_handled f) = Some (f_sent f, st).
  Proof.
    intros (H1 & _ & _ & _ & H5) (R1 & R2 & (st & R3) & R4). rewrite R1, R2 in H1. rewrite R3, R4, app_nil_r in H5. cbn in H1. rewrite app_nil_r in H1. split; [exact H1|]. exists st. auto.
  Qed.

  (** the events of a flow *)
  Fixpoint events_alone (st : S) (l : list (C * list Z)) : list Event := match l with
    | [] => []
    | i :: t => match codec (fst i) st (snd i) with Done e (_, st') => e ++ events_alone st' t | Died e => e end end.
  Definition pending (f : Flow C S) : list Event := match f_codec f with CWorking e _ => e | _ => [] end.
  Definition einv (f : Flow C S) (emitted : list Event) : Prop := finv f /\ (f_codec f <> CPanicked -> emitted ++ pending f = events_alone init (f_handled f)).
  Lemma events_snoc st l i os st' : run alone_step st l = Some (os, st') -> events_alone st (l ++ [i]) = events_alone st l ++ match codec (fst i) st' (snd i) with Done e _ => e | Died e => e end.
  Proof.
    revert st os. induction l as [|j l IH]; intros st os H; cbn [app run events_alone] in *.
    - injection H as <- <-. destruct (codec _ _ _) as [e [o s]|e]; cbn; now rewrite ?app_nil_r.
    - unfold alone_step at 1 in H. destruct (codec (fst j) st (snd j)) as [e [o s]|e]; [|discriminate]. destruct (run alone_step s l) as [[os2 s2]|] eqn:E; [|discriminate]. injection H as <- <-.
      rewrite (IH _ _ E). now rewrite app_assoc.
  Qed.
  Lemma einv_step room quit f a f' evs emitted : einv f emitted -> flow_step codec room quit f a = Some (f', evs) -> einv f' (emitted ++ evs).
  Proof.
    intros [F E] St. split; [eapply finv_step; eassumption|]. destruct F as (_ & _ & _ & _ & H5). revert E H5 St.
    destruct f as [r fi c fo w seen hd sent]. unfold pending. cbn [f_reader f_in f_codec f_out f_writer f_seen f_handled f_sent]. intros E H5 St.
    destruct a; cbn [flow_step f_reader f_in f_codec f_out f_writer f_seen f_handled f_sent set_reader set_codec set_writer] in St.
    - destruct r; try discriminate St. destruct own; injection St as <- <-; cbn [f_codec f_handled set_reader set_codec set_writer]; rewrite app_nil_r; exact E.
    - destruct r; try discriminate St. injection St as <- <-. cbn [f_codec f_handled set_reader set_codec set_writer]; rewrite app_nil_r; exact E.
    - destruct r; try discriminate St. destruct (codec_gone c) eqn:G; [injection St as <- <-; cbn [f_codec f_handled set_reader set_codec set_writer]; rewrite app_nil_r; exact E|]. destruct (Z.ltb_spec (zlen fi) data_channel); [|discriminate St].
      injection St as <- <-. cbn [f_codec f_handled set_reader set_codec set_writer]; rewrite app_nil_r; exact E.
    - destruct c; try discriminate St. destruct fi as [|d fi]; [discriminate St|]. injection St as <- <-. cbn [f_codec f_handled set_reader set_codec set_writer]. intros _.
      rewrite (events_snoc _ _ _ _ _ H5). cbn [fst snd]. rewrite <- E by discriminate. rewrite !app_nil_r. destruct (codec c0 st d) as [e [o st']|e]; reflexivity.
    - destruct c as [|[|e es] res| | |]; try discriminate St. destruct room; injection St as <- <-; cbn [f_codec f_handled set_reader set_codec set_writer].
      + intros _. rewrite <- E by discriminate. now rewrite <- app_assoc.
      + intros X. now exfalso.
    - destruct c as [|[|e es] [[o st]|]| | |]; try discriminate St; injection St as <- <-; cbn [f_codec f_handled set_reader set_codec set_writer]; [intros _; rewrite <- E by discriminate; now rewrite !app_nil_r|intros X; now exfalso].
    - destruct c; try discriminate St. destruct (negb w); [|destruct (Z.ltb_spec (zlen fo) data_channel); [|discriminate St]]; injection St as <- <-; cbn [f_codec f_handled set_reader set_codec set_writer]; [intros X; now exfalso|intros _; rewrite <- E by discriminate; now rewrite !app_nil_r].
    - destruct fo as [|d fo]; [discriminate St|]. destruct w; [|discriminate St]. injection St as <- <-. cbn [f_codec f_handled set_reader set_codec set_writer]; rewrite app_nil_r; exact E.
    - destruct fo as [|d fo]; [discriminate St|]. destruct w; [|discriminate St]. injection St as <- <-. cbn [f_codec f_handled set_reader set_codec set_writer]; rewrite app_nil_r; exact E.
    - destruct fo as [|d fo]; [|discriminate St]. destruct (w && codec_gone c); [|discriminate St]. injection St as <- <-. cbn [f_codec f_handled set_reader set_codec set_writer]; rewrite app_nil_r; exact E.
    - destruct r; try discriminate St. destruct quit; [|discriminate St]. injection St as <- <-. cbn [f_codec f_handled set_reader set_codec set_writer]; rewrite app_nil_r; exact E.
    - destruct c; try discriminate St. destruct quit; [|discriminate St]. injection St as <- <-. cbn [f_codec f_handled set_reader set_codec set_writer]. intros _. rewrite <- E by discriminate. now rewrite !app_nil_r.
    - destruct (quit && w); [|discriminate St]. injection St as <- <-. cbn [f_codec f_handled set_reader set_codec set_writer]; rewrite app_nil_r; exact E.
  Qed.
  (** all events of the codec are of its own kind *)
  Hypothesis codec_mine : forall c st d, match codec c st d with Done e _ => Forall (fun x => mine x = true) e | Died e => Forall (fun x => mine x = true) e end.
  Definition minv (f : Flow C S) : Prop := Forall (fun x => mine x = true) (pending f).
  Lemma minv_step room quit f a f' evs : minv f -> flow_step codec room quit f a = Some (f', evs) -> minv f' /\ Forall (fun x => mine x = true) evs.
  Proof.
    destruct f as [r fi c fo w seen hd sent]. unfold minv, pending. cbn [f_reader f_in f_codec f_out f_writer f_seen f_handled f_sent]. intros E St.
    destruct a; cbn [flow_step f_reader f_in f_codec f_out f_writer f_seen f_handled f_sent set_reader set_codec set_writer] in St.
    - destruct r; try discriminate St. destruct own; injection St as <- <-; cbn [f_codec set_reader set_codec set_writer]; auto.
    - destruct r; try discriminate St. injection St as <- <-. cbn [f_codec set_reader set_codec set_writer]; auto.
    - destruct r; try discriminate St. destruct (codec_gone c) eqn:G; [injection St as <- <-; cbn [f_codec set_reader set_codec set_writer]; auto|]. destruct (Z.ltb_spec (zlen fi) data_channel); [|discriminate St].
      injection St as <- <-. cbn [f_codec set_reader set_codec set_writer]; auto.
    - destruct c; try discriminate St. destruct fi as [|d fi]; [discriminate St|]. injection St as <- <-. cbn [f_codec set_reader set_codec set_writer]. split; [|constructor].
      pose proof (codec_mine c0 st d) as M. destruct (codec c0 st d) as [e [o st']|e]; exact M.
    - destruct c as [|[|e es] res| | |]; try discriminate St. inversion E; subst. destruct room; injection St as <- <-; cbn [f_codec set_reader set_codec set_writer]; auto.
    - destruct c as [|[|e es] [[o st]|]| | |]; try discriminate St; injection St as <- <-; cbn [f_codec set_reader set_codec set_writer]; auto.
    - destruct c; try discriminate St. destruct (negb w); [|destruct (Z.ltb_spec (zlen fo) data_channel); [|discriminate St]]; injection St as <- <-; cbn [f_codec set_reader set_codec set_writer]; auto.
    - destruct fo as [|d fo]; [discriminate St|]. destruct w; [|discriminate St]. injection St as <- <-. cbn [f_codec set_reader set_codec set_writer]; auto.
    - destruct fo as [|d fo]; [discriminate St|]. destruct w; [|discriminate St]. injection St as <- <-. cbn [f_codec set_reader set_codec set_writer]; auto.
    - destruct fo as [|d fo]; [|discriminate St]. destruct (w && codec_gone c); [|discriminate St]. injection St as <- <-. cbn [f_codec set_reader set_codec set_writer]; auto.
    - destruct r; try discriminate St. destruct quit; [|discriminate St]. injection St as <- <-. cbn [f_codec set_reader set_codec set_writer]; auto.
    - destruct c; try discriminate St. destruct quit; [|discriminate St]. injection St as <- <-. cbn [f_codec set_reader set_codec set_writer]; auto.
    - destruct (quit && w); [|discriminate St]. injection St as <- <-. cbn [f_codec set_reader set_codec set_writer]; auto.
  Qed.
  Lemma einv_new : einv (flow_new init) [].
  Proof. split; [apply finv_new|]. intros _. reflexivity. Qed.
  Lemma minv_new : minv (@flow_new C S init).
  Proof. constructor. Qed.
End OneFlow.

(** ** The whole gateway *)
Definition from_encoder (e : Event) : bool := match e with
  | ReceivedBytesDis _ | ReceivedDis _ _ | EncodedPdu _ _ | RejectedUnsupportedDisPdu _ _ | UnimplementedEncodedPdu _ _ | SentCDis _ => true | _ => false end.
Definition from_decoder (e : Event) : bool := negb (from_encoder e).
Definition all_events (P : Event -> bool) {A} (t : trace A) : Prop := match t with Done e _ | Died e => Forall (fun x => P x = true) e end.
Lemma all_bind P {A B} (t : trace A) (f : A -> trace B) : all_events P t -> (forall a, all_events P (f a)) -> all_events P (tbind t f).
Proof. destruct t as [e a|e]; cbn; intros H K; [|exact H]. specialize (K a). destruct (f a); cbn in *; apply Forall_app; auto. Qed.
Lemma all_emit P e : P e = true -> all_events P (emit e). Proof. intros. cbn. auto. Qed.
Lemma all_ret P {A} (a : A) : all_events P (tret a). Proof. constructor. Qed.
Lemma all_die P {A} : all_events P (@tdie A). Proof. constructor. Qed.
Lemma encode_events m g o st i : all_events from_encoder (encode_buffer m g o st i).
Proof.
  unfold encode_buffer. apply all_bind; [now apply all_emit|]. intros _. apply all_bind; [|intros r; apply all_bind; [|intros w; apply all_ret]].
  - destruct (parse m (snd i)) as [ps| |]; [|apply all_ret|apply all_die]. generalize 0%nat (gw_enc st). induction ps as [|p ps IH]; intros k s; cbn [encode_pdus]; [apply all_ret|].
    destruct (negb (is_supported _)); [apply all_bind; [now apply all_emit|intros; apply IH]|]. destruct (negb (is_implemented _)); [apply all_bind; [now apply all_emit|intros; apply IH]|].
    apply all_bind; [now apply all_emit|]. intros _. destruct (encode g o (fst i k) s p) as [[[c r] s']|]; [|apply all_die]. apply all_bind; [now apply all_emit|]. intros _. apply all_bind; [apply IH|]. intros. apply all_ret.
  - unfold enc_writing. destruct (serialize_all _ _ _ _) as [[b n]|]; [|apply all_die]. destruct (_ <=? _); [|apply all_die]. apply all_bind; [now apply all_emit|]. intros. apply all_ret.
Qed.
Lemma decode_events m g o capacity st d : all_events from_decoder (decode_buffer m g o capacity st d).
Proof.
  unfold decode_buffer. apply all_bind; [now apply all_emit|]. intros _. apply all_bind; [|intros r; apply all_bind; [|intros w; apply all_ret]].
  - destruct (cparse d) as [ps| |]; [|apply all_ret|apply all_die]. generalize st. induction ps as [|p ps IH]; intros s; cbn [decode_pdus]; [apply all_ret|].
    destruct (is_implemented _); [apply all_bind; [now apply all_emit|intros; apply IH]|].
    apply all_bind; [now apply all_emit|]. intros _. destruct (decode m g o s p) as [b [[q r] s']|]; [|apply all_die]. apply all_bind; [now apply all_emit|]. intros _. apply all_bind; [apply IH|]. intros. apply all_ret.
  - unfold dec_writing. apply all_bind; [|intros; apply all_bind; [now apply all_emit|intros; apply all_ret]]. generalize (@nil Z) 0. induction (fst r) as [|p ps IH]; intros b n; cbn [dec_writing_all]; [apply all_ret|].
    destruct (serialize m p b (capacity b)) as [b' [k| |]]; [apply IH|apply all_die|apply all_die].
Qed.
Definition events_of (h : list StatInput) : list Event := flat_map (fun i => match i with Ev e => [e] | Tick => [] end) h.
Section Whole.
  Context (m : mode) (g : Geo) (o : Options) (capacity : list Z -> Z).
  Let enc := fun (c : nat -> Z) st d => encode_buffer m g o st (c, d).
  Let dec := fun (_ : unit) st d => decode_buffer m g o capacity st d.
  Definition sinv (s : Sys) : Prop :=
    einv enc encoder_new (s_enc s) (filter from_encoder (s_emitted s)) /\ minv from_encoder (s_enc s) /\
    einv dec dec_state_new (s_dec s) (filter from_decoder (s_emitted s)) /\ minv from_decoder (s_dec s) /\
    s_stats s = stats_after (s_history s) /\ s_emitted s = events_of (s_history s) ++ s_events s /\ zlen (s_events s) <= event_channel.
  Lemma filter_mine P l : Forall (fun x : Event => P x = true) l -> filter P l = l.
  Proof. intros H. induction H as [|x l E _ IH]; [reflexivity|]. cbn. now rewrite E, IH. Qed.
  Lemma filter_not P l : Forall (fun x : Event => P x = true) l -> filter (fun x => negb (P x)) l = [].
  Proof. intros H. induction H as [|x l E _ IH]; [reflexivity|]. cbn. now rewrite E, IH. Qed.
  Lemma flow_room {C S} codec room quit (f f' : Flow C S) a evs : flow_step codec room quit f a = Some (f', evs) -> evs = [] \/ room = true /\ zlen evs = 1.
  Proof.
    destruct f as [r fi c fo w seen hd sent]. intros St.
    destruct a; cbn [flow_step f_reader f_in f_codec f_out f_writer f_seen f_handled f_sent set_reader set_codec set_writer] in St;
    repeat match type of St with
    | Some (_, _) = Some (_, _) => injection St as <- <-
    | None = _ => discriminate St
    | (if ?b then _ else _) = _ => destruct b
    | match ?x with _ => _ end = _ => destruct x
    end; auto.
  Qed.
  Lemma sinv_step s a s' : sinv s -> sys_step m g o capacity s a = Some s' -> sinv s'.
  Proof.
    intros (E1 & M1 & E2 & M2 & H1 & H2 & H3) St. destruct a; cbn [sys_step] in St.
    - change (fun (c : nat -> Z) st d => encode_buffer m g o st (c, d)) with enc in St. destruct (flow_step enc (has_room s) (s_quit s) (s_enc s) a) as [[f evs]|] eqn:F; [|discriminate]. injection St as <-.
      destruct (minv_step enc from_encoder (fun c st d => encode_events m g o st (c, d)) _ _ _ _ _ _ M1 F) as [M1' Me]. unfold sinv. cbn [s_enc s_dec s_events s_stats s_history s_emitted].
      rewrite !filter_app, (filter_mine from_encoder evs Me). rewrite (filter_not from_encoder evs Me : filter from_decoder evs = []), app_nil_r.
      repeat lazymatch goal with |- _ /\ _ => split end; auto; [eapply einv_step; eassumption|now rewrite H2, app_assoc|]. rewrite zlen_app. destruct (flow_room _ _ _ _ _ _ _ F) as [->|[R ->]]; [change (zlen (@nil Event)) with 0; lia|].
      unfold has_room in R. apply andb_prop in R. destruct R as [_ R]. apply Z.ltb_lt in R. lia.
    - change (fun (_ : unit) st d => decode_buffer m g o capacity st d) with dec in St. destruct (flow_step dec (has_room s) (s_quit s) (s_dec s) a) as [[f evs]|] eqn:F; [|discriminate]. injection St as <-.
      destruct (minv_step dec from_decoder (fun c st d => decode_events m g o capacity st d) _ _ _ _ _ _ M2 F) as [M2' Me]. unfold sinv. cbn [s_enc s_dec s_events s_stats s_history s_emitted].
      rewrite !filter_app, (filter_mine from_decoder evs Me).
      assert (X : filter from_encoder evs = []). { rewrite <- (filter_not from_decoder evs Me). apply filter_ext. intros x. unfold from_decoder. now rewrite negb_involutive. }
      rewrite X, app_nil_r.
      repeat lazymatch goal with |- _ /\ _ => split end; auto; [eapply einv_step; eassumption|now rewrite H2, app_assoc|]. rewrite zlen_app. destruct (flow_room _ _ _ _ _ _ _ F) as [->|[R ->]]; [change (zlen (@nil Event)) with 0; lia|].
      unfold has_room in R. apply andb_prop in R. destruct R as [_ R]. apply Z.ltb_lt in R. lia.
    - destruct (s_events s) as [|e t] eqn:Ee; [discriminate|]. destruct (s_stats_up s); [|discriminate]. injection St as <-. unfold sinv. cbn [s_enc s_dec s_events s_stats s_history s_emitted].
      repeat lazymatch goal with |- _ /\ _ => split end; auto; try apply E1; try apply E2.
      + unfold stats_after. rewrite fold_left_app. cbn. now rewrite H1.
      + rewrite H2. unfold events_of. rewrite flat_map_app, <- app_assoc. reflexivity.
      + unfold zlen in *. cbn [length] in H3. lia.
    - destruct (s_stats_up s); [|discriminate]. injection St as <-. unfold sinv. cbn [s_enc s_dec s_events s_stats s_history s_emitted].
      repeat lazymatch goal with |- _ /\ _ => split end; auto; try apply E1; try apply E2.
      + unfold stats_after. rewrite fold_left_app. cbn. now rewrite H1.
      + rewrite H2. unfold events_of. rewrite flat_map_app, app_nil_r. reflexivity.
    - injection St as <-. unfold sinv. cbn [s_enc s_dec s_events s_stats s_history s_emitted]. repeat lazymatch goal with |- _ /\ _ => split end; auto; try apply E1; try apply E2.
    - destruct (s_quit s && s_stats_up s); [|discriminate]. injection St as <-. unfold sinv. cbn [s_enc s_dec s_events s_stats s_history s_emitted]. repeat lazymatch goal with |- _ /\ _ => split end; auto; try apply E1; try apply E2.
  Qed.
  Lemma sinv_new : sinv sys_new.
  Proof.
    unfold sinv. split; [apply einv_new|]. split; [apply minv_new|]. split; [apply einv_new|]. split; [apply minv_new|]. split; [reflexivity|]. split; [reflexivity|]. unfold sys_new. cbn [s_events]. unfold zlen, event_channel. cbn [length]. lia.
  Qed.
  Lemma sinv_reachable s : reachable m g o capacity s -> sinv s.
  Proof.
    intros [l H]. assert (X : forall l s0, sinv s0 -> sys_run m g o capacity s0 l = Some s -> sinv s); [|exact (X l _ sinv_new H)]. clear.
    induction l as [|a l IH]; intros s0 I H; cbn [sys_run] in H; [now injection H as <-|]. destruct (sys_step m g o capacity s0 a) as [s1|] eqn:E; [|discriminate]. eapply IH; [|exact H]. eapply sinv_step; eassumption.
  Qed.
End Whole.
Lemma run_ext {S I O : Type} (f f' : S -> I -> option (O * S)) st l : (forall st i, f st i = f' st i) -> run f st l = run f' st l.
Proof. intros E. revert st. induction l as [|i l IH]; intros st; cbn [run]; [reflexivity|]. rewrite E. destruct (f' st i) as [[c s]|]; [|reflexivity]. now rewrite IH. Qed.
Lemma alone_enc m g o l : alone (fun (c : nat -> Z) st d => encode_buffer m g o st (c, d)) encoder_new l = encoder_alone m g o l.
Proof. apply run_ext. intros st [c d]. reflexivity. Qed.
Lemma alone_dec m g o capacity l : alone (fun (_ : unit) st d => decode_buffer m g o capacity st d) dec_state_new l = decoder_alone m g o capacity l.
Proof. apply run_ext. intros st [c d]. reflexivity. Qed.

(*@C43
   Whatever the schedule, and whether or not tasks stopped or panicked: in each flow the datagrams the codec handled are the first ones that were read from
   the socket, in order, none lost or twice, at most 21 still waiting; and the datagrams put on the other socket are, in order, none lost or twice, the
   first ones of what the codec by itself makes of those it handled - all of them but for the one at which it was interrupted - with at most 21 of them
   waiting. *)
Lemma gateway_order_pf : forall m g o capacity s, reachable m g o capacity s ->
  (exists waiting done last outs e late, f_seen (s_enc s) = map snd (done ++ last) ++ waiting /\ zlen waiting <= 21 /\ zlen last <= 1 /\
    encoder_alone m g o done = Some (outs, e) /\ outs = f_sent (s_enc s) ++ late /\ zlen late <= 21) /\
  (exists waiting done last outs st late, f_seen (s_dec s) = map snd (done ++ last) ++ waiting /\ zlen waiting <= 21 /\ zlen last <= 1 /\
    decoder_alone m g o capacity done = Some (outs, st) /\ outs = f_sent (s_dec s) ++ late /\ zlen late <= 21).
Proof.
  intros m g o capacity s H. apply sinv_reachable in H. destruct H as ([F1 _] & _ & [F2 _] & _). split.
  - destruct (finv_order _ _ _ F1) as (w & E & L & dn & lt & os & st & late & E2 & L2 & A & E3 & L3). rewrite alone_enc in A. rewrite E2 in E. exists w, dn, lt, os, st, late. auto 8.
  - destruct (finv_order _ _ _ F2) as (w & E & L & dn & lt & os & st & late & E2 & L2 & A & E3 & L3). rewrite alone_dec in A. rewrite E2 in E. exists w, dn, lt, os, st, late. auto 8.
Qed.
(*@C43
   In particular, whenever nothing is under way, everything that was read has been handled and everything the codecs made of it has been sent. *)
Lemma gateway_order_at_rest_pf : forall m g o capacity s, reachable m g o capacity s -> at_rest s ->
  (exists times e, length times = length (f_seen (s_enc s)) /\ encoder_alone m g o (combine times (f_seen (s_enc s))) = Some (f_sent (s_enc s), e)) /\
  (exists st, decoder_alone m g o capacity (map (pair tt) (f_seen (s_dec s))) = Some (f_sent (s_dec s), st)).
Proof.
  intros m g o capacity s H (R1 & R2 & _). apply sinv_reachable in H. destruct H as ([F1 _] & _ & [F2 _] & _). split.
  - destruct (finv_rest _ _ _ F1 R1) as (E & st & _ & A). rewrite alone_enc in A. rewrite E. exists (map fst (f_handled (s_enc s))), st. split; [now rewrite !map_length|].
    replace (combine (map fst (f_handled (s_enc s))) (map snd (f_handled (s_enc s)))) with (f_handled (s_enc s)); [exact A|]. clear. induction (f_handled (s_enc s)) as [|[a b] l IH]; [reflexivity|]. cbn. now rewrite <- IH.
  - destruct (finv_rest _ _ _ F2 R2) as (E & st & _ & A). rewrite alone_dec in A. rewrite E. exists st.
    replace (map (pair tt) (map snd (f_handled (s_dec s)))) with (f_handled (s_dec s)); [exact A|]. clear. induction (f_handled (s_dec s)) as [|[[] b] l IH]; [reflexivity|]. cbn. now rewrite <- IH.
Qed.

(** ** Statistics of the whole *)
Definition sum_ev (f : Event -> Z) (l : list Event) : Z := fold_right (fun e a => f e + a) 0 l.
Lemma sum_ev_app f a b : sum_ev f (a ++ b) = sum_ev f a + sum_ev f b.
Proof. induction a as [|e a IH]; cbn; [reflexivity|]. fold (sum_ev f (a ++ b)). fold (sum_ev f a). lia. Qed.
Lemma sum_over_ev f h : sum_over f h = sum_ev f (events_of h).
Proof. induction h as [|[e|] h IH]; cbn; [reflexivity| |exact IH]. fold (sum_over f h). now rewrite IH. Qed.
Lemma sum_ev_filter f P l : (forall e, P e = false -> f e = 0) -> sum_ev f (filter P l) = sum_ev f l.
Proof. intros H. induction l as [|e l IH]; cbn; [reflexivity|]. fold (sum_ev f l). destruct (P e) eqn:E; cbn; [fold (sum_ev f (filter P l)); lia|rewrite (H e E); exact IH]. Qed.
(** the events of one datagram *)
Lemma sum_no f P l : (forall e, P e = true -> f e = 0) -> Forall (fun x => P x = true) l -> sum_ev f l = 0.
Proof. intros H F. induction F as [|e l E _ IH]; cbn; [reflexivity|]. fold (sum_ev f l). rewrite (H e E). exact IH. Qed.
Definition inner (e : Event) : bool := match e with ReceivedBytesDis _ | ReceivedBytesCDis _ | SentDis _ | SentCDis _ => false | _ => true end.
Lemma encode_inner g o clock ps : forall k st, all_events inner (encode_pdus g o clock k st ps).
Proof.
  induction ps as [|p ps IH]; intros k s; cbn [encode_pdus]; [apply all_ret|].
  destruct (negb (is_supported _)); [apply all_bind; [now apply all_emit|intros; apply IH]|]. destruct (negb (is_implemented _)); [apply all_bind; [now apply all_emit|intros; apply IH]|].
  apply all_bind; [now apply all_emit|]. intros _. destruct (encode g o (clock k) s p) as [[[c r] s']|]; [|apply all_die]. apply all_bind; [now apply all_emit|]. intros _. apply all_bind; [apply IH|]. intros. apply all_ret.
Qed.
(** declared lengths are not negative *)
Lemma vint_nn flag cls bits v : 0 <= flag -> (forall c, 0 <= bits c) -> 0 <= len_vint flag cls bits v.
Proof. intros F H. unfold len_vint. specialize (H (cls v)). lia. Qed.
Lemma opt_nn {A} (f : A -> Z) o : (forall a, 0 <= f a) -> 0 <= opt_len f o. Proof. intros H. destruct o; cbn; [apply H|lia]. Qed.
Lemma zsum_nn {A} (f : A -> Z) l : (forall a, 0 <= f a) -> 0 <= zsum (map f l). Proof. intros H. induction l as [|a l IH]; cbn; [lia|]. specialize (H a). lia. Qed.
Ltac nn := lazymatch goal with
  | |- 0 <= _ + _ => apply Z.add_nonneg_nonneg; nn
  | |- 0 <= _ * _ => apply Z.mul_nonneg_nonneg; nn
  | |- 0 <= zlen _ => apply zlen_nonneg
  | |- 0 <= Z.pos _ => lia
  | |- 0 <= 0 => lia
  | |- 0 <= len_vint _ _ _ _ => apply vint_nn; [lia|intros ?; nn]
  | |- 0 <= opt_len _ _ => apply opt_nn; intros ?; nn
  | |- 0 <= zsum (map _ _) => apply zsum_nn; intros ?; nn
  | |- 0 <= (if ?x then _ else _) => destruct x; nn
  | |- 0 <= match ?x with _ => _ end => destruct x; nn
  | |- 0 <= (fun _ => _) _ => cbv beta; nn
  | |- 0 <= ?t => let rec hd t := lazymatch t with ?f _ => hd f | _ => t end in let h := hd t in unfold h; nn
  end.
Lemma len_cheader_nn h : 0 <= len_cheader h. Proof. nn. Qed.
Lemma len_cbody_nn b : 0 <= len_cbody b. Proof. nn. Qed.
Lemma cpdu_length_nonneg c : 0 <= cpdu_length c.
Proof. unfold cpdu_length. pose proof (len_cheader_nn (cp_header c)). pose proof (len_cbody_nn (cp_body c)). lia. Qed.
Lemma encode_buffer_events m g o e i evs out e' : zlen (gw_buffer e) = cbuffer_bits -> encode_buffer m g o e i = Done evs (out, e') ->
  exists mid, evs = ReceivedBytesDis (zlen (snd i)) :: mid ++ [SentCDis (zlen out)] /\ Forall (fun x => inner x = true) mid.
Proof.
  intros L H. unfold encode_buffer in H. apply tbind_emit in H. destruct H as (f & H & ->).
  apply tbind_done in H. destruct H as (e1 & [cs st] & f2 & H1 & H & ->). apply tbind_done in H. destruct H as (e2 & [o2 b2] & f3 & H2 & H & ->).
  unfold tret in H. cbn [fst snd] in *. injection H as <- <- <-. destruct (gateway_encoder_octets_pf _ _ _ _ _ _ L H2) as (own & _ & -> & Lo & _). exists e1. split.
  - rewrite app_nil_r. do 4 f_equal. unfold zlen. rewrite Lo. unfold enc_writing in H2. destruct (serialize_all _ _ _ _) as [[b n]|]; [|discriminate]. 
    assert (0 <= octets_for (declared_bits cs)); [|lia]. unfold octets_for. apply Z.div_pos; [|lia].
    assert (0 <= declared_bits cs); [|lia]. unfold declared_bits. clear. assert (X : forall l n, 0 <= n -> 0 <= fold_left (fun n c => n + cpdu_length c) l n); [|apply X; lia].
    induction l as [|c l IH]; intros n Hn; cbn [fold_left]; [exact Hn|]. apply IH. pose proof (cpdu_length_nonneg c). lia.
  - destruct (parse m (snd i)) as [ps| |]; [|injection H1 as <- _ _; constructor|discriminate]. pose proof (encode_inner g o (fst i) ps 0 (gw_enc e)) as X. rewrite H1 in X. exact X.
Qed.
(** the decoder, for every datagram *)
Definition cdis_events (c : CPdu) : list Event := let ty := ch_type (cp_header c) in let len := octets_for (ch_length (cp_header c)) in
  if cin_cdis c then [UnimplementedDecodedPdu ty len] else [ReceivedCDis ty len; DecodedPdu 0 12].
Lemma decode_buffer_all m g o capacity st bytes : (forall buf, 12 <= capacity buf) -> exists cs out,
  decode_buffer m g o capacity st bytes = Done (ReceivedBytesCDis (zlen bytes) :: flat_map cdis_events cs ++ [SentDis (zlen out)]) (out, st) /\
  cparse bytes = match cs with [] => CParseError | _ => CParsed cs end.
Proof.
  intros C. destruct (cdis_parse_total_pf bytes) as (Np & _ & Ps). destruct (cparse bytes) as [cs| |] eqn:P; [|exists [], []; split; [unfold decode_buffer; rewrite P|]; reflexivity|now exfalso].
  assert (Ne : cs <> []) by (destruct (proj1 (Ps cs) eq_refl) as [Ne _]; exact Ne). clear Ps Np. pose proof (cparse_foreign _ _ P) as F. exists cs.
  assert (exists ps, decode_pdus m g o st cs = Done (flat_map cdis_events cs) (ps, st) /\
    Forall (fun p => h_type (pdu_header p) = 0 /\ h_length (pdu_header p) = 12 /\ pdu_body p = BOther (MkOther None None [])) ps) as (ps & D & Fp).
  { clear P Ne. induction F as [|c cs Hc _ IH].
    - exists []. repeat split. constructor.
    - destruct IH as (ps & D & Fp). cbn [decode_pdus flat_map]. unfold cdis_events at 1. rewrite implemented_ccdis. destruct (cin_cdis c) eqn:I.
      + rewrite D. exists ps. split; [reflexivity|exact Fp].
      + destruct (decode_foreign m g o st c (Hc eq_refl)) as (p & Dp & H0 & H12 & Hb). rewrite Dp, D. cbn [tbind emit tret fst snd app]. exists (p :: ps). rewrite app_nil_r, H0, H12. auto. }
  assert (X : forall buf n, n = zlen buf -> exists out, dec_writing_all m capacity buf n ps = Done [] (out, zlen out)).
  { clear - C Fp. induction Fp as [|p ps (H0 & H12 & Hb) _ IH]; intros buf n E; cbn [dec_writing_all].
    - exists buf. now rewrite E.
    - destruct (serialize_empty m p buf (capacity buf) H0 H12 Hb (C buf)) as (bs & S & L). rewrite S. apply IH. rewrite zlen_app. lia. }
  destruct (X [] 0 eq_refl) as (out & W). exists out. split; [|destruct cs; [now exfalso|reflexivity]]. unfold decode_buffer. rewrite P, D. cbn [tbind emit fst snd]. unfold dec_writing. rewrite W. reflexivity.
Qed.
(** the sums over the events of a flow *)
Lemma sum_ev_cons f e l : sum_ev f (e :: l) = f e + sum_ev f l. Proof. reflexivity. Qed.
Definition outer (f : Event -> Z) : Prop := forall e, inner e = true -> f e = 0.
Lemma sums_datagram f a mid b : outer f -> Forall (fun x => inner x = true) mid -> sum_ev f (a :: mid ++ [b]) = f a + f b.
Proof. intros O F. rewrite sum_ev_cons, sum_ev_app, (sum_no _ _ _ O F), sum_ev_cons. cbn [sum_ev fold_right]. lia. Qed.
Lemma outers : outer dis_in /\ outer dis_ins /\ outer cdis_out /\ outer cdis_outs /\ outer cdis_in /\ outer cdis_ins /\ outer dis_out /\ outer dis_outs.
Proof. unfold outer. repeat split; intros []; cbn; congruence. Qed.
Lemma zlen_cons {A} (a : A) l : zlen (a :: l) = 1 + zlen l. Proof. unfold zlen. cbn [length]. lia. Qed.
Lemma encode_sums m g o l : forall e os e', zlen (gw_buffer e) = cbuffer_bits -> run (alone_step (fun (c : nat -> Z) st d => encode_buffer m g o st (c, d))) e l = Some (os, e') ->
  let evs := events_alone (fun (c : nat -> Z) st d => encode_buffer m g o st (c, d)) e l in
  sum_ev dis_in evs = octets (map snd l) /\ sum_ev dis_ins evs = zlen l /\ sum_ev cdis_out evs = octets os /\ sum_ev cdis_outs evs = zlen os.
Proof.
  induction l as [|[c d] l IH]; intros e os e' L H; cbn [run events_alone fst snd map] in *; [injection H as <- <-; repeat split|].
  unfold alone_step at 1 in H. cbn [fst snd] in H. destruct (encode_buffer m g o e (c, d)) as [ev [out e1]|] eqn:E; [|discriminate].
  destruct (run _ e1 l) as [[os2 e2]|] eqn:R; [|discriminate]. injection H as <- <-. pose proof (encode_buffer_len _ _ _ _ _ _ _ _ L E) as L1.
  destruct (encode_buffer_events _ _ _ _ _ _ _ _ L E) as (mid & -> & F). destruct (IH _ _ _ L1 R) as (A1 & A2 & A3 & A4). cbn [snd].
  destruct outers as (O1 & O2 & O3 & O4 & _). cbv zeta. rewrite !sum_ev_app, !sums_datagram by assumption. rewrite A1, A2, A3, A4, !zlen_cons. cbn [dis_in dis_ins cdis_out cdis_outs octets fold_right].
  fold (octets (map snd l)) (octets os2). lia.
Qed.
Lemma cdis_events_inner cs : Forall (fun x => inner x = true) (flat_map cdis_events cs).
Proof. induction cs as [|c cs IH]; cbn [flat_map]; [constructor|]. apply Forall_app. split; [|exact IH]. unfold cdis_events. destruct (cin_cdis c); repeat constructor. Qed.
Lemma decode_sums m g o capacity l : (forall buf, 12 <= capacity buf) -> forall e os e', run (alone_step (fun (_ : unit) st d => decode_buffer m g o capacity st d)) e l = Some (os, e') ->
  let evs := events_alone (fun (_ : unit) st d => decode_buffer m g o capacity st d) e l in
  sum_ev cdis_in evs = octets (map snd l) /\ sum_ev cdis_ins evs = zlen l /\ sum_ev dis_out evs = octets os /\ sum_ev dis_outs evs = zlen os.
Proof.
  intros C. induction l as [|[c d] l IH]; intros e os e' H; cbn [run events_alone fst snd map] in *; [injection H as <- <-; repeat split|].
  unfold alone_step at 1 in H. cbn [fst snd] in H. destruct (decode_buffer_all m g o capacity e d C) as (cs & out & E & _). rewrite E in H |- *.
  destruct (run _ e l) as [[os2 e2]|] eqn:R; [|discriminate]. injection H as <- <-. destruct (IH _ _ _ R) as (A1 & A2 & A3 & A4). cbn [snd].
  destruct outers as (_ & _ & _ & _ & O1 & O2 & O3 & O4). cbv zeta. rewrite !sum_ev_app, !sums_datagram by (assumption || apply cdis_events_inner). rewrite A1, A2, A3, A4, !zlen_cons. cbn [cdis_in cdis_ins dis_out dis_outs octets fold_right].
  fold (octets (map snd l)) (octets os2). lia.
Qed.
(*@C44
   Whatever the schedule, the statistics are those of a sequence of events that is, but for at most 50 events still queued, exactly what the codecs have sent, in
   the order in which they sent it: no event is lost, counted twice or counted out of order. *)
Lemma gateway_events_pf : forall m g o capacity s, reachable m g o capacity s ->
  s_stats s = stats_after (s_history s) /\ exists queued, s_emitted s = flat_map (fun i => match i with Ev e => [e] | Tick => [] end) (s_history s) ++ queued /\ zlen queued <= 50.
Proof. intros m g o capacity s H. apply sinv_reachable in H. destruct H as (_ & _ & _ & _ & A & B & D). split; [exact A|]. exists (s_events s). split; [exact B|exact D]. Qed.
(*@C44
   Whenever nothing is under way, the totals shown for the two sockets are the numbers of datagrams and of octets that were read from them and written to
   them. (The send buffer of the decoder has room for 12 octets at least.) *)
Lemma gateway_statistics_pf : forall m g o capacity s, (forall buf, 12 <= capacity buf) -> reachable m g o capacity s -> at_rest s ->
  (bytes_received (gs_dis (s_stats s)) = octets (f_seen (s_enc s)) /\ packets_received (gs_dis (s_stats s)) = zlen (f_seen (s_enc s)) /\
   bytes_sent (gs_cdis (s_stats s)) = octets (f_sent (s_enc s)) /\ packets_sent (gs_cdis (s_stats s)) = zlen (f_sent (s_enc s))) /\
  (bytes_received (gs_cdis (s_stats s)) = octets (f_seen (s_dec s)) /\ packets_received (gs_cdis (s_stats s)) = zlen (f_seen (s_dec s)) /\
   bytes_sent (gs_dis (s_stats s)) = octets (f_sent (s_dec s)) /\ packets_sent (gs_dis (s_stats s)) = zlen (f_sent (s_dec s))).
Proof.
  intros m g o capacity s C H (R1 & R2 & R3). apply sinv_reachable in H. destruct H as ([F1 E1] & _ & [F2 E2] & _ & A & B & _).
  destruct (finv_rest _ _ _ F1 R1) as (S1 & st1 & W1 & A1). destruct (finv_rest _ _ _ F2 R2) as (S2 & st2 & W2 & A2).
  rewrite R3, app_nil_r in B. unfold pending in E1, E2. rewrite W1 in E1. rewrite W2 in E2. specialize (E1 ltac:(discriminate)). specialize (E2 ltac:(discriminate)). rewrite app_nil_r in E1, E2.
  assert (L0 : zlen (gw_buffer encoder_new) = cbuffer_bits) by (vm_compute; reflexivity).
  destruct (encode_sums m g o _ _ _ _ L0 A1) as (X1 & X2 & X3 & X4). destruct (decode_sums m g o capacity _ C _ _ _ A2) as (Y1 & Y2 & Y3 & Y4). rewrite <- E1 in X1, X2, X3, X4. rewrite <- E2 in Y1, Y2, Y3, Y4.
  rewrite sum_ev_filter in X1, X2, X3, X4 by (intros []; cbn; congruence). rewrite sum_ev_filter in Y1, Y2, Y3, Y4 by (intros []; cbn; congruence).
  destruct (stats_totals_pf (s_history s)) as [(T1 & T2 & T3 & T4) (U1 & U2 & U3 & U4)]. rewrite !sum_over_ev, <- B in *. rewrite A, S1, S2, T1, T2, T3, T4, U1, U2, U3, U4.
  unfold zlen in *. rewrite !map_length. auto 10.
Qed.

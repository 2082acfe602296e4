(** * Debug and release builds (C53): wherever a build with overflow checks does not stop, one without them does exactly the same. *)
From Coq Require Import ZArith List Lia Bool.
From Verif Require Import Base DisCommon DisLists DisHeader DisSimman DisLogistics DisWarfare DisEntity DisEmission DisRadio DisIff DisPdu DisPacket
  CdisBase CdisRecords CdisBodies1 CdisBodies2 CdisIff CdisPdu CdisCodec1 CdisCodec2 CdisCodec3 Gateway GatewaySys SpecGatewaySys SpecModes SpecCdisPdu DisText L_Wire L_Length L_CdisPdu L_Gateway L_GatewayLive.
Import ListNotations. Open Scope Z_scope.

(** ** The relation *)
Definition wag {O A} (a b : wres O A) : Prop := a = WPanic \/ a = b.
Definition pag {I A} (p q : parser I A) : Prop := forall i, p i = PPanic \/ p i = q i.
Lemma wag_refl {O A} (a : wres O A) : wag a a. Proof. right; reflexivity. Qed.
Lemma wag_bind {O A B} (a b : wres O A) (f g : A -> wres O B) : wag a b -> (forall x, wag (f x) (g x)) -> wag (wbind a f) (wbind b g).
Proof.
  intros [-> | ->] Hf; [left; reflexivity|]. destruct b as [bs x|]; [|left; reflexivity]. unfold wbind.
  destruct (Hf x) as [E|E]; rewrite E; [left|right]; reflexivity.
Qed.
Lemma wag_arith {O} r : @wag O Z (arith Checked r) (arith Wrapping r).
Proof. unfold arith. destruct (_ && _); [right|left]; reflexivity. Qed.
Lemma wag_add32 {O} a b : @wag O Z (add32 Checked a b) (add32 Wrapping a b).
Proof. unfold add32. cbv zeta. destruct (_ && _); [right|left]; reflexivity. Qed.
Lemma wag_uadd32 {O} a b : @wag O Z (uadd32 Checked a b) (uadd32 Wrapping a b).
Proof. unfold uadd32. destruct (_ <? _); [right|left]; reflexivity. Qed.
Lemma wag_sarith ty r : wag (sarith Checked ty r) (sarith Wrapping ty r).
Proof. unfold sarith. destruct (_ && _); [right|left]; reflexivity. Qed.
Lemma wag_wsum {A} (f g : A -> W Z) l : (forall x, wag (f x) (g x)) -> forall acc, wag (wsum Checked f l acc) (wsum Wrapping g l acc).
Proof.
  intros H. induction l as [|x t IH]; intros acc; cbn [wsum]; [apply wag_refl|].
  apply wag_bind; [apply H|intros n]. apply wag_bind; [apply wag_arith|intros]. apply IH.
Qed.
Lemma wag_bw_list {A} (f g : A -> BW) l : (forall x, wag (f x) (g x)) -> wag (bw_list f l) (bw_list g l).
Proof. intros H. induction l as [|x t IH]; cbn [bw_list]; [apply wag_refl|]. apply wag_bind; [apply H|intros; exact IH]. Qed.

Ltac wag_head t := match t with ?f _ => wag_head f | ?f => f end.
Ltac wag_step :=
  match goal with
  | |- wag ?a ?a => apply wag_refl
  | |- wag (wbind _ _) (wbind _ _) => apply wag_bind; [|intro; cbv beta]
  | |- wag (add16 Checked _ _) _ => apply wag_arith
  | |- wag (mul16 Checked _ _) _ => apply wag_arith
  | |- wag (arith Checked _) _ => apply wag_arith
  | |- wag (add32 Checked _ _) _ => apply wag_add32
  | |- wag (uadd32 Checked _ _) _ => apply wag_uadd32
  | |- wag (sarith Checked _ _) _ => apply wag_sarith
  | |- wag (wmap_sum Checked _ _) _ => apply wag_wsum; intro; cbv beta
  | |- wag (wsum Checked _ _ _) _ => apply wag_wsum; intro; cbv beta
  | |- wag (bw_list _ _) _ => apply wag_bw_list; intro; cbv beta
  | |- wag (match ?x with _ => _ end) _ => destruct x
  | |- wag ?a _ => let h := wag_head a in unfold h; cbv beta zeta
  end.
Ltac wag_all := repeat wag_step.

(** ** DIS writing *)
Lemma wag_body_length b : wag (body_length Checked b) (body_length Wrapping b).
Proof. destruct b; cbn [body_length]; wag_all. Qed.
Lemma wag_body v b : wag (w_body Checked v b) (w_body Wrapping v b).
Proof. destruct b; cbn [w_body]; wag_all. Qed.
Lemma wag_pdu p : wag (w_pdu Checked p) (w_pdu Wrapping p).
Proof. unfold w_pdu. wag_step; [apply wag_refl|]. wag_step; [apply wag_body|apply wag_arith]. Qed.
Lemma wag_length p : wag (pdu_length Checked p) (pdu_length Wrapping p).
Proof. unfold pdu_length. wag_step; [apply wag_body_length|apply wag_arith]. Qed.
Lemma wag_finalize h b ts : wag (finalize Checked h b ts) (finalize Wrapping h b ts).
Proof. unfold finalize. wag_step; [apply wag_body_length|]. wag_step; [|apply wag_refl]. unfold with_length. wag_step; [apply wag_arith|apply wag_refl]. Qed.

(** ** DIS parsing *)
Lemma pag_refl {I A} (p : parser I A) : pag p p. Proof. intros i. right; reflexivity. Qed.
Lemma pag_bind {I A B} (p q : parser I A) (f g : A -> parser I B) : pag p q -> (forall x, pag (f x) (g x)) -> pag (pbind p f) (pbind q g).
Proof.
  intros H Hf i. unfold pbind. destruct (H i) as [E|E]; rewrite E; [left; reflexivity|]. destruct (q i) as [r x| |]; [apply Hf|right|right]; reflexivity.
Qed.
Lemma pag_parith {I} r : @pag I Z (parith Checked r) (parith Wrapping r).
Proof. intros i. unfold parith. destruct (_ && _); [right|left]; reflexivity. Qed.
Lemma pag_plift {A} (a b : W A) : wag a b -> pag (plift a) (plift b).
Proof. intros [-> | ->] i; [left|right]; reflexivity. Qed.
Lemma pag_count {A} (p q : bparser A) n : pag p q -> pag (count p n) (count q n).
Proof. intros H. unfold count. induction (Z.to_nat n); cbn [count_nat]; [apply pag_refl|]. apply pag_bind; [exact H|intros]. apply pag_bind; [assumption|intros; apply pag_refl]. Qed.
Ltac pag_step :=
  match goal with
  | |- pag ?a ?a => apply pag_refl
  | |- pag (pbind _ _) (pbind _ _) => apply pag_bind; [|intro; cbv beta]
  | |- pag (parith Checked _) _ => apply pag_parith
  | |- pag (plift _) _ => apply pag_plift; wag_all
  | |- pag (count _ _) _ => apply pag_count
  | |- pag (match ?x with _ => _ end) _ => destruct x
  | |- pag ?a _ => let h := wag_head a in unfold h; cbv beta zeta
  end.
Ltac pag_all := repeat pag_step.
Lemma pag_body h : pag (p_body Checked h) (p_body Wrapping h).
Proof. unfold p_body. cbv zeta. repeat match goal with |- pag (if ?b then _ else _) _ => destruct b end; pag_all. Qed.
Lemma pag_pdu : pag (p_pdu Checked) (p_pdu Wrapping).
Proof. unfold p_pdu. pag_step; [apply pag_refl|]. pag_step; [apply pag_body|apply pag_refl]. Qed.
Lemma pag_loop {I A} (len : I -> Z) (p q : parser I A) : pag p q -> forall n acc, pag (many_loop len p n acc) (many_loop len q n acc).
Proof.
  intros H. induction n as [|n IH]; intros acc i; cbn [many_loop]; [right; reflexivity|].
  destruct (H i) as [E|E]; rewrite E; [left; reflexivity|]. destruct (q i) as [r a| |]; [|right; reflexivity|right; reflexivity].
  destruct (_ =? _); [right; reflexivity|apply IH].
Qed.
Lemma pag_many1 {I A} (len : I -> Z) (p q : parser I A) : pag p q -> pag (many1 len p) (many1 len q).
Proof.
  intros H i. unfold many1. destruct (H i) as [E|E]; rewrite E; [left; reflexivity|]. destruct (q i) as [r a| |]; [apply pag_loop, H|right|right]; reflexivity.
Qed.

(*@C53
Parsing: an octet string on which a build with overflow checks does not panic is parsed to the same result, PDUs or error, by a build without them. *)
Lemma builds_agree_parse_pf : forall i, parse Checked i <> ParsePanic -> parse Wrapping i = parse Checked i.
Proof.
  intros i H. unfold parse in *. destruct (pag_many1 zlen _ _ pag_pdu i) as [E|E]; rewrite E in *; [contradiction|reflexivity].
Qed.
(*@C53
The same for the version filters and for a single PDU. *)
Lemma builds_agree_parse_more_pf : forall i,
  (parse_v6 Checked i <> ParsePanic -> parse_v6 Wrapping i = parse_v6 Checked i) /\
  (parse_v7 Checked i <> ParsePanic -> parse_v7 Wrapping i = parse_v7 Checked i) /\
  (parse_pdu Checked i <> ParsePanic -> parse_pdu Wrapping i = parse_pdu Checked i).
Proof.
  intros i. split; [|split]; intros H.
  - unfold parse_v6 in *. rewrite builds_agree_parse_pf; [reflexivity|]. intros E. rewrite E in H. apply H. reflexivity.
  - unfold parse_v7 in *. rewrite builds_agree_parse_pf; [reflexivity|]. intros E. rewrite E in H. apply H. reflexivity.
  - unfold parse_pdu in *. destruct (pag_pdu i) as [E|E]; rewrite E in *; [contradiction|reflexivity].
Qed.
(*@ex*)
Example builds_agree_parse_example : exists i, parse Checked i <> ParsePanic /\ parse Checked i <> ParseError.
Proof. exists (sample_packet 25 (zeros 92)). split; vm_compute; discriminate. Qed.

(*@C53
Serialization: when a build with overflow checks writes a PDU or reports a buffer that is too small, a build without them leaves the same buffer and
returns the same result. *)
Lemma builds_agree_serialize_pf : forall p buf capacity, snd (serialize Checked p buf capacity) <> Panicked ->
  serialize Wrapping p buf capacity = serialize Checked p buf capacity.
Proof.
  intros p buf capacity H. unfold serialize in *. destruct (wag_length p) as [E|E]; rewrite E in *; [contradiction H; reflexivity|].
  destruct (pdu_length Wrapping p) as [bs n|]; [|reflexivity]. destruct (capacity <? n); [reflexivity|].
  destruct (wag_pdu p) as [E2|E2]; rewrite E2 in *; [contradiction H; reflexivity|reflexivity].
Qed.
(*@C53
Building a PDU from its parts: the header with the same length, or a panic of the checked build only. *)
Lemma builds_agree_finalize_pf : forall h b ts, finalize Checked h b ts <> WPanic -> finalize Wrapping h b ts = finalize Checked h b ts.
Proof. intros h b ts H. destruct (wag_finalize h b ts) as [E|E]; [contradiction|symmetry; exact E]. Qed.

(** ** C-DIS *)
Lemma wag_cbody b : wag (w_cbody Checked b) (w_cbody Wrapping b).
Proof. destruct b; cbn [w_cbody]; wag_all. Qed.
Lemma wag_cpdu p : wag (w_cpdu Checked p) (w_cpdu Wrapping p).
Proof. unfold w_cpdu. wag_step; [apply wag_refl|]. wag_step; [apply wag_cbody|apply wag_refl]. Qed.
(*@C53
C-DIS serialization: what a build with overflow checks writes, and where it leaves the cursor, one without them writes. *)
Lemma builds_agree_cserialize_pf : forall p buf cursor, cserialize Checked p buf cursor <> None ->
  cserialize Wrapping p buf cursor = cserialize Checked p buf cursor.
Proof.
  intros p buf cursor H. unfold cserialize, run_at in *. destruct (wag_cpdu p) as [E|E]; rewrite E in *; [contradiction H; reflexivity|reflexivity].
Qed.
Lemma all_agree l : forall buf cursor, serialize_all Checked l buf cursor <> None -> serialize_all Wrapping l buf cursor = serialize_all Checked l buf cursor.
Proof.
  induction l as [|p t IH]; intros buf cursor H; cbn [serialize_all] in *; [reflexivity|].
  assert (N : cserialize Checked p buf cursor <> None) by (intros E; rewrite E in H; apply H; reflexivity).
  rewrite (builds_agree_cserialize_pf _ _ _ N). destruct (cserialize Checked p buf cursor) as [[b c]|]; [apply IH; exact H|contradiction N; reflexivity].
Qed.
Lemma wag_decode g o st p : wag (decode Checked g o st p) (decode Wrapping g o st p).
Proof. unfold decode. cbv zeta. destruct (dec_body g o st (cp_body p)) as [[b r] st']. wag_step; [apply wag_finalize|apply wag_refl]. Qed.
(*@C53
C-DIS decoding: a history of C-DIS PDUs that a decoder with overflow checks decodes without a panic is decoded to the same PDUs, and leaves the same
state, without them.  (Encoding and C-DIS parsing do not depend on the build in the model: their arithmetic is on wide types or already reduced.) *)
Lemma builds_agree_decode_pf : forall g o l, decode_all Checked g o l <> None -> decode_all Wrapping g o l = decode_all Checked g o l.
Proof.
  intros g o l. unfold decode_all. generalize dec_state_new as st. induction l as [|c t IH]; intros st H; cbn [run] in *; [reflexivity|].
  assert (N : decode_step Checked g o st c <> None) by (intros E; rewrite E in H; apply H; reflexivity).
  assert (A : decode_step Wrapping g o st c = decode_step Checked g o st c).
  { unfold decode_step in *. destruct (wag_decode g o st c) as [E|E]; rewrite E in *; [contradiction N|]; reflexivity. }
  rewrite A. destruct (decode_step Checked g o st c) as [[p st']|]; [|reflexivity]. rewrite IH; [reflexivity|].
  intros E. rewrite E in H. apply H. reflexivity.
Qed.

(** ** The gateway *)
Definition tag {A} (a b : trace A) : Prop := (exists e, a = Died e) \/ a = b.
Lemma tag_refl {A} (a : trace A) : tag a a. Proof. right; reflexivity. Qed.
Lemma tag_bind {A B} (a b : trace A) (f g : A -> trace B) : tag a b -> (forall x, tag (f x) (g x)) -> tag (tbind a f) (tbind b g).
Proof.
  intros [[e ->]| ->] H; [left; eexists; reflexivity|]. destruct b as [e x|e]; [|right; reflexivity]. cbn [tbind].
  destruct (H x) as [[e' E]|E]; rewrite E; [left; eexists; reflexivity|right; reflexivity].
Qed.
Lemma tag_enc_writing buf cs : tag (enc_writing Checked buf cs) (enc_writing Wrapping buf cs).
Proof.
  unfold enc_writing. destruct (serialize_all Checked cs buf 0) as [[b c]|] eqn:E; [|left; eexists; reflexivity].
  rewrite all_agree, E by (rewrite E; discriminate). apply tag_refl.
Qed.
Lemma tag_encode_buffer g o e i : tag (encode_buffer Checked g o e i) (encode_buffer Wrapping g o e i).
Proof.
  unfold encode_buffer. cbv zeta. apply tag_bind; [apply tag_refl|intros _]. apply tag_bind; [|intros r; apply tag_bind; [apply tag_enc_writing|intros; apply tag_refl]].
  destruct (parse Checked (snd i)) eqn:E; [| |left; eexists; reflexivity]; rewrite builds_agree_parse_pf, E by (rewrite E; discriminate); apply tag_refl.
Qed.
Lemma tag_decode_pdus g o cs : forall st, tag (decode_pdus Checked g o st cs) (decode_pdus Wrapping g o st cs).
Proof.
  induction cs as [|c t IH]; intros st; cbn [decode_pdus]; [apply tag_refl|]. cbv zeta.
  destruct (is_implemented _); (apply tag_bind; [apply tag_refl|intros _]); [apply IH|].
  destruct (wag_decode g o st c) as [E|E]; rewrite E; [left; eexists; reflexivity|].
  destruct (decode Wrapping g o st c) as [bs [[p r] st']|]; [|apply tag_refl].
  apply tag_bind; [apply tag_refl|intros _]. apply tag_bind; [apply IH|intros; apply tag_refl].
Qed.
Lemma tag_dec_writing capacity ps : tag (dec_writing Checked capacity ps) (dec_writing Wrapping capacity ps).
Proof.
  unfold dec_writing. apply tag_bind; [|intros; apply tag_refl]. generalize 0 as n. generalize (@nil Z) as buf.
  induction ps as [|p t IH]; intros buf n; cbn [dec_writing_all]; [apply tag_refl|].
  destruct (serialize Checked p buf (capacity buf)) as [b' [k|need cap|]] eqn:E; [| |left; eexists; reflexivity];
    rewrite builds_agree_serialize_pf, E by (rewrite E; discriminate); [apply IH|apply tag_refl].
Qed.
Lemma tag_decode_buffer g o capacity st d : tag (decode_buffer Checked g o capacity st d) (decode_buffer Wrapping g o capacity st d).
Proof.
  unfold decode_buffer. apply tag_bind; [apply tag_refl|intros _]. apply tag_bind; [|intros r; apply tag_bind; [apply tag_dec_writing|intros; apply tag_refl]].
  destruct (cparse d); [apply tag_decode_pdus|apply tag_refl|apply tag_refl].
Qed.

Lemma flow_agree {C S} (k1 k2 : C -> S -> list Z -> trace (list Z * S)) room quit f a f' evs : (forall c st d, tag (k1 c st d) (k2 c st d)) ->
  flow_step k1 room quit f a = Some (f', evs) -> codec_unharmed (f_codec f') -> flow_step k2 room quit f a = Some (f', evs) /\ codec_unharmed (f_codec f).
Proof.
  intros H E U. destruct f as [rd inn cd out wr seen hd sent]. destruct a; cbn [flow_step f_reader f_in f_codec f_out f_writer f_seen f_handled f_sent] in *;
    repeat match type of E with context [match ?x with _ => _ end] =>
      match x with k1 _ _ _ => fail 1 | _ => destruct x eqn:? end end; try discriminate E;
    try (inversion E; subst; clear E; cbn [f_codec set_codec set_reader set_writer codec_unharmed] in *; try contradiction; split; [reflexivity|try exact I; try assumption]; fail).
  all: try (inversion E; subst; clear E; cbn [f_codec set_codec set_reader set_writer codec_unharmed] in *; contradiction).
  inversion E; subst; clear E. cbn [f_codec codec_unharmed] in U. split; [|exact I].
  match goal with |- context [k2 ?c ?s ?d] => destruct (H c s d) as [[e E2]|E2]; rewrite E2 in *; [contradiction|reflexivity] end.
Qed.
Lemma step_agree g o capacity s a s' : sys_step Checked g o capacity s a = Some s' -> unharmed s' -> sys_step Wrapping g o capacity s a = Some s' /\ unharmed s.
Proof.
  intros E [U V]. unfold unharmed. destruct a; cbn [sys_step] in *.
  - destruct (flow_step _ _ _ _ _) as [[f evs]|] eqn:F; [|discriminate]. inversion E; subst; clear E. cbn [s_enc s_dec] in U, V.
    destruct (flow_agree _ (fun c st d => encode_buffer Wrapping g o st (c, d)) _ _ _ _ _ _ ltac:(intros; apply tag_encode_buffer) F U) as [F2 U2].
    rewrite F2. repeat split; assumption.
  - destruct (flow_step _ _ _ _ _) as [[f evs]|] eqn:F; [|discriminate]. inversion E; subst; clear E. cbn [s_enc s_dec] in U, V.
    destruct (flow_agree _ (fun (_ : unit) st d => decode_buffer Wrapping g o capacity st d) _ _ _ _ _ _ ltac:(intros; apply tag_decode_buffer) F V) as [F2 U2].
    rewrite F2. repeat split; assumption.
  - destruct (s_events s); [discriminate|]. destruct (s_stats_up s); [|discriminate]. inversion E; subst. repeat split; assumption.
  - destruct (s_stats_up s); [|discriminate]. inversion E; subst. repeat split; assumption.
  - inversion E; subst. repeat split; assumption.
  - destruct (_ && _); [|discriminate]. inversion E; subst. repeat split; assumption.
Qed.
(*@C53
The gateway as a whole: a schedule of its tasks after which no codec task of a build with overflow checks has panicked or is about to leads a build
without them to the same state: the same datagrams sent, the same statistics, the same codec states. *)
Lemma builds_agree_gateway_pf : forall g o capacity l s, sys_run Checked g o capacity sys_new l = Some s -> unharmed s ->
  sys_run Wrapping g o capacity sys_new l = Some s.
Proof.
  intros g o capacity l. induction l as [|a t IH] using rev_ind; intros s H U.
  - exact H.
  - assert (A : forall m l1 l2 x, sys_run m g o capacity x (l1 ++ l2) = match sys_run m g o capacity x l1 with Some y => sys_run m g o capacity y l2 | None => None end).
    { intros m l1. induction l1 as [|b l1 IHl]; intros l2 x; cbn [app sys_run]; [reflexivity|]. destruct (sys_step m g o capacity x b); [apply IHl|reflexivity]. }
    rewrite A in *. destruct (sys_run Checked g o capacity sys_new t) as [s1|] eqn:E1; [|discriminate]. cbn [sys_run] in *.
    destruct (sys_step Checked g o capacity s1 a) as [s2|] eqn:E2; [|discriminate]. inversion H; subst s2.
    destruct (step_agree _ _ _ _ _ _ E2 U) as [E3 U1]. rewrite (IH _ eq_refl U1), E3. reflexivity.
Qed.
(*@ex*)
Example builds_agree_gateway_example : forall g o capacity, (forall buf, 12 <= capacity buf) -> exists l s, sys_run Checked g o capacity sys_new l = Some s /\ unharmed s /\
  f_seen (s_enc s) = [stop_octets 255] /\ zlen (f_sent (s_enc s)) = 1.
Proof.
  intros g o capacity C. destruct (gateway_rest_example g o capacity C) as (l & s & _ & R & [(_ & _ & [st1 E1] & _) [(_ & _ & [st2 E2] & _) _]] & _ & S1 & S2).
  exists l, s. split; [exact R|]. split; [|split; assumption]. unfold unharmed. rewrite E1, E2. split; exact I.
Qed.

(*@C53
Time stamps from seconds: the same, as long as a checked build does not panic. *)
Lemma builds_agree_seconds_pf : forall s,
  (new_absolute_from_secs Checked s <> None -> new_absolute_from_secs Wrapping s = new_absolute_from_secs Checked s) /\
  (new_relative_from_secs Checked s <> None -> new_relative_from_secs Wrapping s = new_relative_from_secs Checked s).
Proof.
  intros s. unfold new_absolute_from_secs, new_relative_from_secs, seconds_to_nanoseconds. cbv zeta.
  destruct (_ <? _); split; intros H; try reflexivity; contradiction H; reflexivity.
Qed.

(*@C53
Where the checked build stops, the other one goes on with a length that is wrong: an Other PDU of 65524 to 65535 octets of body panics with overflow
checks; without them its octets are all written, and the number that is returned, and required of the buffer, is less by 65536. *)
Lemma builds_differ_serialize_refuted_pf : forall h o r body buf capacity, 65524 <= zlen body < 65536 -> zlen body - 65524 <= capacity ->
  let p := MkPdu h (BOther (MkOther o r body)) in
  serialize Checked p buf capacity = (buf, Panicked) /\
  exists bs, serialize Wrapping p buf capacity = (buf ++ bs, Written (zlen body - 65524)) /\ zlen bs = 12 + zlen body.
Proof.
  intros h o r body buf capacity H C p. subst p. destruct (Wr_header h) as (hb & Eh & Lh).
  assert (M : zlen body mod 65536 = zlen body) by (apply Z.mod_small; lia).
  assert (N : (12 + zlen body <? 65536) = false) by (apply Z.ltb_ge; lia).
  assert (V : (12 + zlen body) mod 65536 = zlen body - 65524).
  { replace (12 + zlen body) with ((zlen body - 65524) + 1 * 65536) by lia. rewrite Z.mod_add, Z.mod_small by lia. reflexivity. }
  unfold serialize, pdu_length, w_pdu. cbn [pdu_header pdu_body body_length w_body]. unfold len_other, w_other, put_slice, wret, add16, arith. cbn [Other_body].
  rewrite Eh, M. cbv [wbind wret wpanic]. rewrite N, !andb_false_r. cbv iota. split; [reflexivity|]. rewrite V.
  assert (G : (capacity <? zlen body - 65524) = false) by (apply Z.ltb_ge; lia). rewrite G. exists (hb ++ (body ++ []) ++ []).
  split; [reflexivity|]. rewrite !app_nil_r. unfold zlen in *. rewrite app_length. lia.
Qed.
(*@ex*)
Example builds_agree_examples : (exists bs, serialize Checked sample_response [] 100 = (bs, Written 64)) /\
  (exists bs, w_cpdu Checked (ex_pdu 22 (CBComment ex_comment)) = WOk bs tt /\ cserialize Checked (ex_pdu 22 (CBComment ex_comment)) bs 0 <> None) /\
  (forall g o, decode_all Checked g o [ex_pdu 22 (CBComment ex_comment)] <> None).
Proof.
  split; [eexists; vm_compute; reflexivity|]. split; [|intros; vm_compute; discriminate].
  destruct (w_cpdu Checked (ex_pdu 22 (CBComment ex_comment))) as [bs []|] eqn:E; [|vm_compute in E; discriminate].
  exists bs. split; [reflexivity|]. vm_compute in E. injection E as <-. vm_compute. discriminate.
Qed.

(** * C33: the stateless simulation management codecs *)
From Coq Require Import ZArith List Lia Bool SpecFloat.
From Verif Require Import Base CdisBase DisCommon DisHeader DisLists DisSimman DisLogistics DisWarfare DisEntity DisEmission DisRadio DisIff DisText DisPdu DisPacket
  CdisRecords CdisBodies1 CdisBodies2 CdisIff CdisPdu SpecCdis SpecCdisPdu L_CdisBits L_CdisPdu CdisCodec1 CdisCodec2 CdisCodec3 SpecCodec L_Codec L_CodecDec.
Import ListNotations. Open Scope Z_scope.

Lemma dec_enc_clock c : dec_clock (enc_clock c) = c. Proof. destruct c; reflexivity. Qed.
Lemma three_bits z : 0 <= z < 8 -> Z.b2z (Z.testbit z 0) + 2 * Z.b2z (Z.testbit z 1) + 4 * Z.b2z (Z.testbit z 2) = z.
Proof. intros H. assert (z = 0 \/ z = 1 \/ z = 2 \/ z = 3 \/ z = 4 \/ z = 5 \/ z = 6 \/ z = 7) as X by lia. repeat (destruct X as [->|X]; [reflexivity|]). subst. reflexivity. Qed.

(** the header as it is read back from what was written: fields too big for their bits are cut *)
Definition cut_header (h : CHeader) : CHeader :=
  MkCHeader (ch_version h mod 4) (ch_exercise h) (ch_type h) (ch_timestamp h mod 67108864) (ch_length h mod 16384) (parse_status (ch_type h) (write_status (ch_type h) (ch_status h))).
Lemma BRT_cheader_cut h : u8 (ch_exercise h) -> u8 (ch_type h) -> BRT (w_cheader h) p_cheader (cut_header h) (len_cheader h).
Proof.
  destruct h as [cv ce ct cs cl cu]. unfold u8, w_cheader, p_cheader, len_cheader, cut_header. cbn [ch_version ch_exercise ch_type ch_timestamp ch_length ch_status]. intros H1 H2.
  assert (H7 : ub 8 (write_status ct cu)).
  { pose proof (write_status_u8 ct cu). unfold ub. change (2 ^ 8) with 256. assumption. }
  eapply BRT_conv; [eapply BRT_bind; [apply BRT_put_mod; lia|]; eapply BRT_bind; [apply BRT_uvint8; exact H1|]; eapply BRT_bind; [apply BRT_put; [lia|exact H2]|];
    eapply BRT_bind; [apply BRT_put_mod; lia|]; eapply BRT_bind; [apply BRT_put_mod; lia|]; eapply BRT_bind; [apply BRT_put; [lia|exact H7]|]; apply BRT_ret|reflexivity|lia].
Qed.

Lemma plain_eq (b b' : PduBody) (dst : DecState) : b = b' -> (b, StateUnaffected, dst) = (b', StateUnaffected, dst).
Proof. intros ->. reflexivity. Qed.
Definition is_query (b : PduBody) : bool := match b with BDataQuery _ => true | _ => false end.
Lemma simman_codec g o now est dst b : simman_narrow b -> wf_body b -> is_query b = false -> exists c, enc_body g o now est b = Some (c, StateUnaffected, est) /\ dec_body g o dst c = (b, StateUnaffected, dst).
Proof.
  intros H W Q. destruct b; cbn [simman_narrow] in H; try (destruct H; fail); try discriminate Q; clear Q; cbn [enc_body]; (eexists; split; [reflexivity|]); cbn [dec_body]; apply plain_eq; f_equal.
  all: lazymatch goal with x : StopFreeze |- _ => 
    destruct x as [a b c d e f]; cbn [wf_body] in W; destruct W as (_ & _ & _ & _ & W & _); unfold u8 in W; cbn [StopFreeze_frozen_behavior StopFreeze_reason] in *; unfold dec_stop, enc_stop;
    cbn [StopFreeze_originating_id StopFreeze_receiving_id StopFreeze_real_world_time StopFreeze_reason StopFreeze_frozen_behavior StopFreeze_request_id
      CStopFreeze_orig CStopFreeze_recv CStopFreeze_real_time CStopFreeze_reason CStopFreeze_run_clock CStopFreeze_transmit CStopFreeze_process CStopFreeze_request];
    rewrite !dec_enc_eid, dec_enc_clock, three_bits by lia; reflexivity | _ => idtac end.
  all: unfold enc_create, dec_create, enc_remove, dec_remove, enc_start, dec_start, enc_ack, dec_ack, enc_actreq, dec_actreq, enc_actresp, dec_actresp, enc_setdata, dec_setdata,
    enc_data, dec_data, enc_report, dec_report, enc_comment, dec_comment; cbn; rewrite ?dec_enc_eid, ?dec_enc_clock; destruct x; reflexivity.
Qed.

Lemma fits_enc_eid e : wf_EntityId e -> fits_CEntityId (enc_eid e).
Proof. destruct e as [[a b] c]. unfold wf_EntityId, wf_SimulationAddress, u16, fits_CEntityId, enc_eid, ub. cbn. lia. Qed.
Lemma fits_datums f v : datums_narrow f v -> Forall wf_FixedDatum f -> Forall wf_VariableDatum v -> fits_cDatumSpec (MkDatumSpecification f v).
Proof.
  intros (H1 & H2 & H3) Hf Hv. unfold fits_cDatumSpec. cbn [ds_fixed ds_variable]. repeat lazymatch goal with |- _ /\ _ => split end; [assumption|assumption|exact Hf|].
  rewrite Forall_forall in *. intros d Hd. specialize (Hv d Hd). specialize (H3 d Hd). cbv beta in H3. destruct Hv as [A B]. split; [exact A|]. split; [exact B|exact H3].
Qed.
Lemma fits_enc_clock c : wf_ClockTime c -> sb 32 (fst (enc_clock c)) /\ ub 32 (snd (enc_clock c)).
Proof. destruct c. unfold wf_ClockTime, i32, u32, sb, ub, enc_clock. cbn. lia. Qed.
Lemma simman_fits g o now est b c r est' : simman_narrow b -> wf_body b -> is_query b = false -> enc_body g o now est b = Some (c, r, est') ->
  fits_cbody c /\ no_lossy_parts c /\ ctype_of c = Some (body_type b).
Proof.
  intros H W Q E. destruct b; cbn [simman_narrow] in H; try (destruct H; fail); try discriminate Q; clear Q; cbn [enc_body] in E; injection E as <- <- <-; cbn [wf_body] in W; split; try (split; [exact I|reflexivity]);
    cbn [fits_cbody]; repeat match goal with W : _ /\ _ |- _ => destruct W end.
  all: match goal with |- ?P _ => unfold P end; repeat match goal with x := _ |- _ => subst x end.
  all: (match type of W with ?P _ => unfold P in W end); repeat match goal with W : _ /\ _ |- _ => destruct W end.
  all: repeat lazymatch goal with |- _ /\ _ => split end; try (apply fits_enc_eid; assumption); try (apply fits_enc_clock; assumption); try assumption.
  all: cbn; unfold ub, u8, u16, u32 in *; try lia.
  all: try (apply fits_datums; assumption).
  apply fits_datums; [assumption|constructor|assumption].
Qed.
Lemma ubits_nat_mod n : forall k v, (n <= k)%nat -> ubits_nat n (v mod 2 ^ Z.of_nat k) = ubits_nat n v.
Proof.
  induction n as [|n IH]; intros k v H; [reflexivity|]. cbn [ubits_nat]. rewrite IH by lia. f_equal. rewrite Z.mod_pow2_bits_low by lia. reflexivity.
Qed.
Lemma bput_mod ty n v : bput ty n (v mod 2 ^ n) = bput ty n v.
Proof.
  unfold bput. destruct (Z.leb_spec 1 n); [|reflexivity]. destruct (n <=? ty); [|reflexivity]. cbn [andb]. unfold ubits.
  replace (2 ^ n) with (2 ^ Z.of_nat (Z.to_nat n)) by (f_equal; lia). now rewrite ubits_nat_mod by lia.
Qed.
Definition cut_query (c : CDataQuery) : CDataQuery :=
  MkCDataQuery (CDataQuery_orig c) (CDataQuery_recv c) (CDataQuery_request c) (CDataQuery_interval c mod 67108864) (CDataQuery_fixed c) (CDataQuery_variable c).
Lemma w_cut_query m c : w_cquery m (cut_query c) = w_cquery m c.
Proof.
  unfold w_cquery. replace (fields_cquery (cut_query c)) with (fields_cquery c) by reflexivity. unfold cut_query.
  cbn [CDataQuery_orig CDataQuery_recv CDataQuery_request CDataQuery_interval CDataQuery_fixed CDataQuery_variable]. change 67108864 with (2 ^ 26). now rewrite bput_mod.
Qed.
Lemma convert_odd a b v : Z.odd (convert_raw a b v) = Z.odd v.
Proof.
  unfold convert_raw. rewrite <- !Z.bit0_odd, Z.lor_spec, Z.land_spec. change (2 ^ 32) with (2 * 2147483648).
  rewrite (Z.mul_comm _ 2), Zmult_mod_distr_l, Z.testbit_even_0. cbn [orb]. change (Z.testbit 1 0) with true. apply andb_true_r.
Qed.
Lemma query_fits x : wf_DataQuery x -> zlen (DataQuery_fixed_datum_records x) < 256 /\ zlen (DataQuery_variable_datum_records x) < 256 -> fits_CDataQuery (cut_query (enc_query x)).
Proof.
  intros (H1 & H2 & H3 & H4 & H5 & H6) [N1 N2]. unfold fits_CDataQuery, cut_query, enc_query. cbn. repeat lazymatch goal with |- _ /\ _ => split end; try (apply fits_enc_eid; assumption); try assumption.
  unfold ub. change (2 ^ 26) with 67108864. apply Z.mod_pos_bound. lia.
Qed.
(** sums never panic in a release build *)
Definition calm (w : W Z) : Prop := exists n, w = WOk [] n.
Lemma calm_ret n : calm (wret n). Proof. now exists n. Qed.
Lemma calm_arith r : calm (arith Wrapping r). Proof. unfold arith. destruct ((0 <=? r) && (r <? 65536)); eexists; reflexivity. Qed.
Lemma calm_bind (w : W Z) f : calm w -> (forall n, calm (f n)) -> calm (wbind w f).
Proof. intros [n ->] H. unfold wbind. destruct (H n) as [k ->]. now exists k. Qed.
Lemma calm_sum {A} (w : A -> W Z) l : (forall a, calm (w a)) -> forall z, calm (wsum Wrapping w l z).
Proof. intros H. induction l as [|a l IH]; intros z; cbn [wsum]; [apply calm_ret|]. apply calm_bind; [apply H|]. intros n. apply calm_bind; [apply calm_arith|]. exact IH. Qed.
Lemma calm_variable l : calm (len_variable_datums Wrapping l).
Proof. apply calm_sum. intros d. pose proof (zlen_nonneg (vd_value d)). rewrite w_padded_ok by lia. eexists. reflexivity. Qed.
Lemma calm_simman b : simman_narrow b -> calm (body_length Wrapping b).
Proof.
  intros H. destruct b; cbn [simman_narrow] in H; try (destruct H; fail); cbn [body_length].
  all: match goal with |- calm (?f _ _) => unfold f end.
  all: repeat (apply calm_bind; [|intros]); try apply calm_arith; try apply calm_ret; try apply calm_variable.
Qed.
(** the body as it is read back, the bits it takes, and what is decoded from it *)
Lemma simman_trip g o now est dst b : simman_narrow b -> wf_body b -> exists c c', enc_body g o now est b = Some (c, StateUnaffected, est) /\
  ctype_of c = Some (body_type b) /\
  (forall m, BRT (w_cbody m c) (p_cbody (body_type b)) c' (len_cbody c - excess_cbody c)) /\
  exists b', dec_body g o dst c' = (b', StateUnaffected, dst) /\ simman_same b' b /\ body_type b' = body_type b /\
    exists n, body_length Wrapping b' = WOk [] n.
Proof.
  intros H W. destruct (is_query b) eqn:Q.
  - destruct b; try discriminate Q. exists (CBDataQuery (enc_query x)), (CBDataQuery (cut_query (enc_query x))). split; [reflexivity|]. split; [reflexivity|]. split.
    + intros m. pose proof (query_fits x W H) as F. assert (B := BRT_cbody m (body_type (BDataQuery x)) (CBDataQuery (cut_query (enc_query x))) eq_refl F).
      cbn [w_cbody img_cbody] in B. rewrite w_cut_query in B. cbn [w_cbody]. eapply BRT_conv; [exact B|reflexivity|].
      assert (X := excess_ok (CBDataQuery (cut_query (enc_query x))) F). change (len_cbody (CBDataQuery (cut_query (enc_query x)))) with (len_cbody (CBDataQuery (enc_query x))) in X; change (excess_cbody (CBDataQuery (cut_query (enc_query x)))) with (excess_cbody (CBDataQuery (enc_query x))) in X; lia.
    + eexists. split; [cbn [dec_body]; reflexivity|]. split; [|split; [reflexivity|apply (calm_simman (BDataQuery (dec_query (cut_query (enc_query x)))) H)]].
      unfold simman_same, dec_query, cut_query, enc_query. cbn. rewrite !dec_enc_eid. repeat lazymatch goal with |- _ /\ _ => split end; try reflexivity.
      unfold cdis_to_dis_ts. rewrite convert_odd. rewrite <- (convert_odd CDIS_TIME_UNITS_PER_HOUR DIS_TIME_UNITS_PER_HOUR (DataQuery_time_interval x)). unfold dis_to_cdis_ts. rewrite <- !Z.bit0_odd. change 67108864 with (2 ^ 26). apply Z.mod_pow2_bits_low. lia.
  - destruct (simman_codec g o now est dst b H W Q) as (c & E & D). destruct (simman_fits _ _ _ _ _ _ _ _ H W Q E) as (F & N & T). exists c, c. split; [exact E|]. split; [exact T|]. split.
    + intros m. pose proof (BRT_cbody m (body_type b) c) as B. unfold body_matches in B. rewrite T in B. specialize (B eq_refl F). eapply BRT_conv; [exact B|now apply img_no_lossy|].
      rewrite (excess_ok c) by (now apply fits_wfits_cbody). lia.
    + exists b. split; [exact D|]. split; [destruct b; try reflexivity; discriminate Q|]. split; [reflexivity|].
      now apply calm_simman.
Qed.

(*@C33
   A Create Entity, Remove Entity, Start/Resume, Stop/Freeze, Acknowledge, Action Request, Action Response, Data Query, Set Data, Data, Event Report or
   Comment PDU whose values fit the C-DIS fields (Stop/Freeze reason below 16 and frozen behavior below 8, acknowledge flag below 8, response flag below
   4, at most 255 fixed and 255 variable datums of at most 2047 octets each) is encoded, whatever the state of the encoder; what is written of it is read
   back by the C-DIS parser; and what the decoder, whatever its state, makes of that is the same body - but for the time interval of a Data Query, of
   which only the flag in the lowest bit is sure to survive - with the same exercise, type and, if it is well formed for the type, status. Neither codec's
   state changes. The decoder does not panic in a release build; in a debug build it can only panic on the 16-bit length of the DIS PDU. *)
Lemma cdis_simman_lossless_pf : forall g o now est dst p, wf_body (pdu_body p) -> simman_narrow (pdu_body p) ->
  u8 (h_exercise (pdu_header p)) -> h_type (pdu_header p) = body_type (pdu_body p) ->
  exists c, encode g o now est p = Some (c, StateUnaffected, est) /\
  forall m, exists q, reads_back (w_cpdu m c) p_cpdu q (cpdu_length c - excess_cbody (cp_body c)) /\
  (exists p', decode Wrapping g o dst q = WOk [] (p', StateUnaffected, dst)) /\
  (forall m' p' r dst', decode m' g o dst q = WOk [] (p', r, dst') ->
    r = StateUnaffected /\ dst' = dst /\ simman_same (pdu_body p') (pdu_body p) /\
    h_exercise (pdu_header p') = h_exercise (pdu_header p) /\ h_type (pdu_header p') = h_type (pdu_header p) /\
    (forall s, h_status (pdu_header p) = Some s -> status_ok (h_type (pdu_header p)) s -> h_status (pdu_header p') = Some s)).
Proof.
  intros g o now est dst [h b]. cbn [pdu_header pdu_body]. intros W N U T.
  destruct (simman_trip g o now est dst b N W) as (c & c' & E & Ct & B & b' & D & S & Tb & l & L).
  unfold encode. cbn [pdu_header pdu_body]. rewrite E. eexists. split; [reflexivity|]. intros m.
  set (ch := cp_header (cfinalize (enc_header h) c None)).
  assert (Hty : ch_type ch = body_type b) by exact T.
  assert (U8 : u8 (body_type b)) by (clear - N; unfold u8; destruct b; cbn [simman_narrow] in N; try (destruct N; fail); cbn; lia).
  exists (MkCPdu (cut_header ch) c'). split; [|split].
  - apply BRT_reads. unfold w_cpdu, p_cpdu, cpdu_length. cbn [cp_body cfinalize]. fold (cfinalize (enc_header h) c None). fold ch.
    eapply BRT_conv; [eapply BRT_bind; [apply BRT_cheader_cut; [exact U|rewrite Hty; exact U8]|]|reflexivity|].
    + eapply BRT_bind; [|apply BRT_ret]. change (ch_type (cut_header ch)) with (ch_type ch). rewrite Hty. apply B.
    + change (cp_header (cfinalize (enc_header h) c None)) with ch. change (cp_body (cfinalize (enc_header h) c None)) with c. lia.
  - unfold decode. cbn [cp_header cp_body]. rewrite D. unfold finalize. rewrite L. unfold with_length, wbind, wret. destruct (calm_arith (12 + l)) as [k K]. unfold add16. rewrite K. eexists. reflexivity.
  - intros m' p' r dst'. unfold decode. cbn [cp_header cp_body]. rewrite D. unfold finalize. 
    destruct (body_length m' b') as [bs n|] eqn:E1; [|discriminate]. unfold with_length, wbind, wret. destruct (add16 m' 12 n) as [bs2 n2|] eqn:E2; [|intros X; discriminate X].
    intros X. injection X as X1 <- <- <-. cbn [pdu_header pdu_body]. split; [reflexivity|]. split; [reflexivity|]. split; [exact S|].
    split; [reflexivity|]. split; [cbn; now rewrite Tb|]. intros s Hs Ok. cbn. f_equal. rewrite Hs. apply parse_write_status. exact Ok.
Qed.
Definition ex_stop (reason frozen : Z) : Pdu :=
  MkPdu (header_new 7 3 14) (BStopFreeze (MkStopFreeze (MkEntityId (MkSimulationAddress 1 2) 3) (MkEntityId (MkSimulationAddress 4 5) 6) (MkClockTime 7 8) reason frozen 9)).
Definition ex_set_data : Pdu :=
  MkPdu (header_new 7 3 19) (BSetData (MkSetData (MkEntityId (MkSimulationAddress 1 2) 3) (MkEntityId (MkSimulationAddress 4 65535) 6) 70000 [MkFixedDatum 1 2; MkFixedDatum 3 4294967295] [MkVariableDatum 9 [1; 2; 3]])).
(*@ex*)
Example cdis_simman_lossless_example : (wf_body (pdu_body ex_set_data) /\ simman_narrow (pdu_body ex_set_data) /\ u8 (h_exercise (pdu_header ex_set_data)) /\
  h_type (pdu_header ex_set_data) = body_type (pdu_body ex_set_data)) /\
  (wf_body (pdu_body (ex_stop 15 7)) /\ simman_narrow (pdu_body (ex_stop 15 7)) /\ h_type (pdu_header (ex_stop 15 7)) = body_type (pdu_body (ex_stop 15 7))).
Proof.
  cbn -[Z.lt Z.le]. unfold wf_SetData, wf_StopFreeze, wf_EntityId, wf_SimulationAddress, wf_ClockTime, datums_narrow, u8, u16, u32, i32, zlen. cbn -[Z.lt Z.le].
  repeat lazymatch goal with |- _ /\ _ => split | |- Forall _ [] => constructor | |- Forall _ (_ :: _) => constructor end; unfold wf_FixedDatum, wf_VariableDatum, bytes, u8, u32, zlen; cbn -[Z.lt Z.le];
    repeat lazymatch goal with |- _ /\ _ => split | |- Forall _ [] => constructor | |- Forall _ (_ :: _) => constructor end; cbn -[Z.lt Z.le]; try reflexivity; unfold u8; try lia.
Qed.
(*@C33
   The narrowing is real: a Stop/Freeze PDU with reason 16 comes out with reason 0, and one with the fourth frozen behavior bit comes out without it. *)
Lemma cdis_simman_narrowing_refuted_pf : forall g o now est dst, (exists c r buf q rest p', encode g o now est (ex_stop 16 0) = Some (c, r, est) /\
    w_cpdu Checked c = WOk buf tt /\ p_cpdu buf = POk rest q /\ decode Checked g o dst q = WOk [] (p', StateUnaffected, dst) /\
    match pdu_body p' with BStopFreeze x => StopFreeze_reason x = 0 | _ => False end) /\
  (exists c r buf q rest p', encode g o now est (ex_stop 1 8) = Some (c, r, est) /\
    w_cpdu Checked c = WOk buf tt /\ p_cpdu buf = POk rest q /\ decode Checked g o dst q = WOk [] (p', StateUnaffected, dst) /\
    match pdu_body p' with BStopFreeze x => StopFreeze_frozen_behavior x = 0 | _ => False end).
Proof.
  intros. split; do 6 eexists; (split; [vm_compute; reflexivity|]); (split; [vm_compute; reflexivity|]); (split; [vm_compute; reflexivity|]); (split; [vm_compute; reflexivity|]); reflexivity.
Qed.
(*@C42
   Whatever the PDU and the states of the codecs: whether its time stamp is absolute or relative (the lowest bit) survives the trip over C-DIS, where 26 bits of the time stamp are written. *)
Lemma cdis_timestamp_flag_pf : forall g o now est p c r est' m dst q p' r' dst', encode g o now est p = Some (c, r, est') ->
  ch_timestamp (cp_header q) = ch_timestamp (cp_header c) mod 2 ^ 26 -> decode m g o dst q = WOk [] (p', r', dst') ->
  Z.odd (h_time (pdu_header p')) = Z.odd (h_time (pdu_header p)).
Proof.
  intros g o now est p c r est' m dst q p' r' dst' E Q D. unfold encode in E. destruct (enc_body _ _ _ _ _) as [[[b r0] e0]|]; [|discriminate]. injection E as <- <- <-.
  cbn [cfinalize cp_header ch_timestamp enc_header] in Q. unfold decode in D. destruct (dec_body _ _ _ _) as [[b' r1] d1]. unfold finalize in D.
  destruct (body_length m b') as [bs n|]; [|discriminate]. unfold with_length, wbind, wret in D. destruct (add16 m 12 n) as [bs2 n2|]; [|discriminate D].
  injection D as _ <- _ _.
  change (Z.odd (cdis_to_dis_ts (ch_timestamp (cp_header q))) = Z.odd (h_time (pdu_header p))). rewrite Q. unfold cdis_to_dis_ts, dis_to_cdis_ts. rewrite convert_odd, <- (convert_odd CDIS_TIME_UNITS_PER_HOUR DIS_TIME_UNITS_PER_HOUR (h_time (pdu_header p))).
  rewrite <- !Z.bit0_odd. apply Z.mod_pow2_bits_low. lia.
Qed.
Definition ex_timed (t : Z) : Pdu := let p := ex_stop 1 0 in let h := pdu_header p in
  MkPdu (MkPduHeader (h_version h) (h_exercise h) (h_type h) (h_family h) t (h_length h) (h_status h) (h_padding h)) (pdu_body p).
(*@C42
   The time itself does not: half past the hour (2147483648, units of an hour / 2^31 doubled) is written as 47934848 and comes out as 51622148, 43 seconds past. *)
Lemma cdis_timestamp_refuted_pf : forall g o now est dst, exists c r buf q rest p', encode g o now est (ex_timed 2147483648) = Some (c, r, est) /\
    w_cpdu Checked c = WOk buf tt /\ p_cpdu buf = POk rest q /\ decode Checked g o dst q = WOk [] (p', StateUnaffected, dst) /\
    ch_timestamp (cp_header q) = 47934848 /\ h_time (pdu_header p') = 51622148.
Proof.
  intros. do 6 eexists; (split; [vm_compute; reflexivity|]); (split; [vm_compute; reflexivity|]); (split; [vm_compute; reflexivity|]); (split; [vm_compute; reflexivity|]); split; reflexivity.
Qed.

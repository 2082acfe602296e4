(** * C34-C36: the gateway's encoder and decoder *)
From Coq Require Import ZArith List Lia Bool SpecFloat.
From Verif Require Import Base CdisBase DisCommon DisHeader DisLists DisSimman DisLogistics DisWarfare DisEntity DisEmission DisRadio DisIff DisText DisPdu DisPacket
  CdisRecords CdisBodies1 CdisBodies2 CdisIff CdisPdu SpecCdis SpecCdisPdu L_CdisBits L_CdisPdu CdisCodec1 CdisCodec2 CdisCodec3 SpecCodec L_Codec L_CodecDec L_CodecSim Gateway SpecGateway.
Import ListNotations. Open Scope Z_scope.

Lemma tbind_done {A B} (t : trace A) (f : A -> trace B) evs b : tbind t f = Done evs b -> exists e1 a e2, t = Done e1 a /\ f a = Done e2 b /\ evs = e1 ++ e2.
Proof. destruct t as [e1 a|e1]; cbn; [|discriminate]. destruct (f a) as [e2 b'|e2] eqn:E; [|discriminate]. intros H. injection H as <- <-. eauto 6. Qed.
Lemma tbind_emit {B} e (f : unit -> trace B) evs b : tbind (emit e) f = Done evs b -> exists e2, f tt = Done e2 b /\ evs = e :: e2.
Proof. intros H. apply tbind_done in H. destruct H as (e1 & [] & e2 & H1 & H2 & ->). injection H1 as <-. eauto. Qed.
Lemma supported_cdis p : is_supported (h_type (pdu_header p)) = in_cdis p. Proof. reflexivity. Qed.
Lemma implemented_cdis p : is_implemented (h_type (pdu_header p)) = in_cdis p. Proof. reflexivity. Qed.
Lemma implemented_ccdis c : is_implemented (ch_type (cp_header c)) = cin_cdis c. Proof. reflexivity. Qed.

Lemma encode_header g o now st p c r st' : encode g o now st p = Some (c, r, st') ->
  ch_type (cp_header c) = h_type (pdu_header p) /\ ch_exercise (cp_header c) = h_exercise (pdu_header p).
Proof. unfold encode. destruct (enc_body _ _ _ _ _) as [[[b r'] st2]|]; [|discriminate]. intros H. injection H as <- _ _. split; reflexivity. Qed.
(*@C34
   For every datagram of PDUs: the gateway's encoder produces one C-DIS PDU for each PDU of a C-DIS type, in order, with its type and exercise - what the
   C-DIS encoder makes of these PDUs at the times they are handled - and none for the others; each of the others gives one rejection event with its type
   and length, each PDU of a C-DIS type one received and one encoded event, and no PDU is reported as unimplemented. *)
Lemma gateway_encoder_types_pf : forall g o clock k st ps evs cs st', encode_pdus g o clock k st ps = Done evs (cs, st') ->
  Forall2 (fun p c => ch_type (cp_header c) = h_type (pdu_header p) /\ ch_exercise (cp_header c) = h_exercise (pdu_header p)) (filter in_cdis ps) cs /\
  (exists times, length times = length (filter in_cdis ps) /\ run (encode_step g o) st (combine times (filter in_cdis ps)) = Some (cs, st')) /\
  filter is_rejection evs = map (fun p => RejectedUnsupportedDisPdu (h_type (pdu_header p)) (h_length (pdu_header p))) (filter (fun p => negb (in_cdis p)) ps) /\
  filter is_received evs = map (fun p => ReceivedDis (h_type (pdu_header p)) (h_length (pdu_header p))) (filter in_cdis ps) /\
  filter is_encoded evs = map (fun c => EncodedPdu (ch_type (cp_header c)) (octets_for (ch_length (cp_header c)))) cs /\
  filter is_unimplemented evs = [].
Proof.
  intros g o clock k st ps. revert k st. induction ps as [|p ps IH]; intros k st evs cs st' H; cbn [encode_pdus] in H.
  - injection H as <- <- <-. cbn. repeat split; [constructor|]. exists []. split; reflexivity.
  - rewrite supported_cdis, implemented_cdis in H. cbn [filter]. destruct (in_cdis p) eqn:E; cbn [negb] in *.
    + apply tbind_emit in H. destruct H as (e2 & H & ->). destruct (encode g o (clock k) st p) as [[[c r] st1]|] eqn:Ec; [|discriminate].
      apply tbind_emit in H. destruct H as (e3 & H & ->). apply tbind_done in H. destruct H as (e4 & [cs' st2] & e5 & H & X & ->). injection X as <- <- <-. rewrite app_nil_r.
      destruct (IH (S k) st1 e4 cs' st2 H) as (A & (ts & L & R) & B & C & D & F). cbn [fst snd].
      repeat lazymatch goal with |- _ /\ _ => split end.
      * constructor; [|exact A]. exact (encode_header _ _ _ _ _ _ _ _ Ec).
      * exists (clock k :: ts). split; [cbn; now rewrite L|]. cbn [combine run]. unfold encode_step at 1. cbn [fst snd]. rewrite Ec, R. reflexivity.
      * cbn. exact B.
      * cbn. now rewrite C.
      * cbn. now rewrite D.
      * cbn. exact F.
    + apply tbind_emit in H. destruct H as (e2 & H & ->). destruct (IH (S k) st e2 cs st' H) as (A & R & B & C & D & F).
      repeat lazymatch goal with |- _ /\ _ => split end; try assumption; cbn; now rewrite B.
Qed.
(*@C34
   The encoder fails on a datagram only if the C-DIS encoder fails on a PDU of it: it does not if every Entity State PDU has a marking that can be cut at 11 octets. *)
Lemma gateway_encoder_survives_pf : forall g o clock k st ps,
  Forall (fun p => forall x, pdu_body p = BEntityState x -> exists s, text s (mk_string (EntityState_marking x)) /\ can_cut s) ps ->
  exists evs cs st', encode_pdus g o clock k st ps = Done evs (cs, st').
Proof.
  intros g o clock k st ps H. revert k st. induction H as [|p ps Hp _ IH]; intros k st; cbn [encode_pdus]; [eexists; eexists; eexists; reflexivity|].
  destruct (negb (is_supported _)); [destruct (IH (S k) st) as (e & c & s & ->); eexists; eexists; eexists; reflexivity|].
  destruct (negb (is_implemented _)); [destruct (IH (S k) st) as (e & c & s & ->); eexists; eexists; eexists; reflexivity|].
  unfold encode. destruct (enc_body g o (clock k) st (pdu_body p)) as [[[b r] st1]|] eqn:E.
  - destruct (IH (S k) st1) as (e & c & s & ->). eexists; eexists; eexists; reflexivity.
  - exfalso. revert E. apply enc_body_total. intros x Hx. destruct (Hp x Hx) as (s & [Hs <-] & Hc). rewrite utf8_decode_encode by exact Hs. now apply can_cut_spec.
Qed.

(** ** What is written *)
Lemma serialize_all_bits m cs : forall buf cursor, 0 <= cursor <= zlen buf ->
  serialize_all m cs buf cursor = match own_bits m cs with Some bs => run_at (WOk bs tt) buf cursor | None => None end.
Proof.
  induction cs as [|p ps IH]; intros buf c Hc.
  - cbn [serialize_all own_bits run_at]. unfold splice. change (zlen (@nil bool)) with 0. rewrite Z.add_0_r.
    replace (0 <=? c) with true by lia. replace (c <=? zlen buf) with true by lia. cbn [andb app]. now rewrite firstn_skipn.
  - cbn [serialize_all own_bits]. unfold cserialize. destruct (w_cpdu m p) as [bs1 []|]; [|reflexivity]. cbn [run_at]. pose proof (zlen_nonneg bs1).
    destruct (own_bits m ps) as [bs2|] eqn:E.
    + pose proof (zlen_nonneg bs2). destruct (Z.le_gt_cases (c + zlen bs1 + zlen bs2) (zlen buf)) as [Hr|Hr].
      * destruct (splice_app buf c bs1 bs2 ltac:(lia) Hr) as (b1 & E1 & Lb & E2). rewrite E1. rewrite IH by lia. unfold run_at. rewrite E2. destruct (splice buf c (bs1 ++ bs2)); [|reflexivity].
        rewrite zlen_app. do 2 f_equal. lia.
      * rewrite (splice_fail buf c (bs1 ++ bs2)) by (rewrite zlen_app; lia). destruct (splice buf c bs1) as [b1|] eqn:E1; [|reflexivity].
        pose proof (splice_len _ _ _ _ E1) as Lb. assert (c + zlen bs1 <= zlen buf).
        { unfold splice in E1. destruct (Z.leb_spec (c + zlen bs1) (zlen buf)); [assumption|]. rewrite andb_false_r in E1. discriminate. }
        rewrite IH by lia. unfold run_at. rewrite splice_fail by lia. reflexivity.
    + destruct (splice buf c bs1) as [b1|] eqn:E1; [|reflexivity]. pose proof (splice_len _ _ _ _ E1) as Lb. assert (c + zlen bs1 <= zlen buf).
      { unfold splice in E1. destruct (Z.leb_spec (c + zlen bs1) (zlen buf)); [assumption|]. rewrite andb_false_r in E1. discriminate. }
      rewrite IH by lia. reflexivity.
Qed.
Lemma to_bits_len l : zlen (to_bits l) = 8 * zlen l.
Proof. induction l as [|x l IH]; [reflexivity|]. change (to_bits (x :: l)) with (octet_bits x ++ to_bits l). rewrite zlen_app, IH. unfold octet_bits. rewrite ubits_zlen by lia. unfold zlen. cbn [length]. lia. Qed.
Lemma to_bits_octets_whole l n : zlen l = 8 * n -> to_bits (to_octets l) = l.
Proof.
  intros H. destruct (to_bits_octets l) as (pad & Hp & E). assert (pad = []) as ->; [|now rewrite app_nil_r in E].
  pose proof (to_bits_len (to_octets l)) as L. rewrite E, zlen_app, H in L. pose proof (zlen_nonneg pad). destruct pad; [reflexivity|]. unfold zlen in *. cbn [length] in *. lia.
Qed.
Lemma declared_acc cs n : fold_left (fun n c => n + cpdu_length c) cs n = n + declared_bits cs.
Proof. unfold declared_bits. revert n. induction cs as [|c cs IH]; intros n; cbn [fold_left]; [lia|]. rewrite IH, (IH (0 + cpdu_length c)). lia. Qed.
(*@C36
   What the gateway's encoder emits for the C-DIS PDUs of a datagram: as many octets as their declared lengths fill, holding first the PDUs' own bits, one
   PDU after the other, and then whatever the buffer held before. *)
Lemma gateway_encoder_octets_pf : forall m buf cs evs out buf', zlen buf = cbuffer_bits -> enc_writing m buf cs = Done evs (out, buf') ->
  exists own, own_bits m cs = Some own /\ evs = [SentCDis (octets_for (declared_bits cs))] /\ length out = Z.to_nat (octets_for (declared_bits cs)) /\ zlen buf' = cbuffer_bits /\
    buf' = own ++ skipn (length own) buf /\ to_bits out = firstn (8 * length out) (own ++ skipn (length own) buf).
Proof.
  intros m buf cs evs out buf' Hb H. unfold enc_writing in H. rewrite serialize_all_bits in H by (rewrite Hb; cbv; split; discriminate).
  destruct (own_bits m cs) as [bs|]; [|discriminate]. exists bs. split; [reflexivity|]. cbn [run_at] in H. unfold splice in H. cbn [Z.leb Z.compare andb] in H.
  rewrite Z.add_0_l in H. destruct (Z.leb_spec (zlen bs) (zlen buf)) as [Hl|]; [|discriminate]. change (firstn (Z.to_nat 0) buf) with (@nil bool) in H. cbn [app] in H.
  replace (Z.to_nat (zlen bs)) with (length bs) in H by (unfold zlen; lia).
  set (nb := bs ++ skipn (length bs) buf) in *. assert (Ln : zlen nb = zlen buf) by (unfold nb, zlen in *; rewrite app_length, skipn_length; lia).
  set (n := octets_for (declared_bits cs)) in *. destruct (Z.leb_spec (8 * n) (zlen nb)) as [Hn|]; [|discriminate].
  apply tbind_emit in H. destruct H as (e2 & H & ->). unfold tret in H. injection H as <- <- <-.
  assert (T : to_bits (to_octets (firstn (Z.to_nat (8 * n)) nb)) = firstn (Z.to_nat (8 * n)) nb).
  { apply to_bits_octets_whole with (n := Z.max 0 n). unfold zlen in *. rewrite firstn_length. lia. }
  assert (L : length (to_octets (firstn (Z.to_nat (8 * n)) nb)) = Z.to_nat n).
  { pose proof (to_bits_len (to_octets (firstn (Z.to_nat (8 * n)) nb))) as X. rewrite T in X. unfold zlen in X, Hn. rewrite firstn_length in X. lia. }
  repeat lazymatch goal with |- _ /\ _ => split end; [reflexivity|exact L|now rewrite Ln|reflexivity|]. transitivity (firstn (Z.to_nat (8 * n)) nb); [exact T|]. f_equal. transitivity (8 * Z.to_nat n)%nat; [lia|]. f_equal. symmetry. exact L.
Qed.
(*@C36
   So the bits of the PDUs themselves never depend on what was sent before, and nothing does when those bits fill the octets that are sent. (The missing
   part: the rest of the octets, up to 7 bits plus the bits that the PDUs declare too many, is left over from earlier datagrams; see the refutations.) *)
Lemma gateway_encoder_fresh_pf : forall m buf1 buf2 cs evs1 out1 buf1' evs2 out2 buf2' own, zlen buf1 = cbuffer_bits -> zlen buf2 = cbuffer_bits ->
  enc_writing m buf1 cs = Done evs1 (out1, buf1') -> enc_writing m buf2 cs = Done evs2 (out2, buf2') -> own_bits m cs = Some own ->
  evs1 = evs2 /\ length out1 = length out2 /\ firstn (length own) (to_bits out1) = firstn (length own) (to_bits out2) /\
  (8 * zlen out1 <= zlen own -> to_bits out1 = to_bits out2 /\ to_bits out1 = firstn (8 * length out1) own).
Proof.
  intros m buf1 buf2 cs evs1 out1 buf1' evs2 out2 buf2' own H1 H2 W1 W2 O.
  destruct (gateway_encoder_octets_pf _ _ _ _ _ _ H1 W1) as (b1 & O1 & -> & L1 & _ & _ & T1). destruct (gateway_encoder_octets_pf _ _ _ _ _ _ H2 W2) as (b2 & O2 & -> & L2 & _ & _ & T2).
  assert (b1 = own) by congruence. assert (b2 = own) by congruence. subst b1 b2. rewrite T1, T2, <- L1 in *. rewrite L1, <- L2 in *. split; [reflexivity|]. split; [reflexivity|]. split.
  - rewrite !firstn_firstn. set (k := Nat.min _ _). assert (k <= length own)%nat by (unfold k; lia). rewrite !firstn_app. replace (k - length own)%nat with 0%nat by lia. reflexivity.
  - intros Hl. unfold zlen in Hl. rewrite !firstn_app. replace (8 * length out2 - length own)%nat with 0%nat by lia. cbn [firstn]. rewrite !app_nil_r. split; reflexivity.
Qed.

(** ** What the receiver reads *)
Lemma BRT_sendable m c : sendable c -> BRT (w_cpdu m c) p_cpdu (MkCPdu (cut_header (cp_header c)) (img_cbody (cp_body c))) (bits_cpdu c).
Proof.
  intros (H1 & H2 & H3 & H4). unfold w_cpdu, p_cpdu, bits_cpdu.
  eapply BRT_conv; [eapply BRT_bind; [apply BRT_cheader_cut; assumption|]; eapply BRT_bind; [|apply BRT_ret]; cbv beta; change (ch_type (cut_header (cp_header c))) with (ch_type (cp_header c)); apply BRT_cbody; eassumption|reflexivity|lia].
Qed.
Lemma own_split m cs qs : Forall2 (fun c q => BRT (w_cpdu m c) p_cpdu q (cpdu_length c - excess_cbody (cp_body c))) cs qs -> exists own, own_bits m cs = Some own /\
  zlen own = declared_bits cs - total (fun c => excess_cbody (cp_body c)) cs /\ forall tail, zlen tail < 58 -> Split p_cpdu (own ++ tail) qs tail.
Proof.
  intros H. induction H as [|c q cs qs Hc _ (own & E & L & S)].
  - exists []. split; [reflexivity|]. split; [reflexivity|]. intros tail Ht. cbn [app map]. destruct (p_cpdu_short tail Ht) as [k Hk]. econstructor; exact Hk.
  - destruct Hc as (bs & W & Lb & R). exists (bs ++ own). split; [cbn [own_bits]; rewrite W, E; reflexivity|]. split.
    + rewrite zlen_app, Lb, L. unfold declared_bits at 2. cbn [fold_left total fold_right]. rewrite declared_acc. unfold total. lia.
    + intros tail Ht. rewrite <- app_assoc. cbn [map]. econstructor; [apply R|apply S, Ht].
Qed.
Lemma encode_buffer_done m g o e clock bytes ps evs out e' : parse m bytes = Parsed ps -> encode_buffer m g o e (clock, bytes) = Done evs (out, e') ->
  exists e1 cs e2, encode_pdus g o clock 0 (gw_enc e) ps = Done e1 (cs, gw_enc e') /\ enc_writing m (gw_buffer e) cs = Done e2 (out, gw_buffer e') /\ evs = ReceivedBytesDis (zlen bytes) :: e1 ++ e2.
Proof.
  intros P H. unfold encode_buffer in H. cbn [fst snd] in H. apply tbind_emit in H. destruct H as (f & H & ->). rewrite P in H.
  apply tbind_done in H. destruct H as (e1 & [cs st] & f2 & H1 & H & ->). apply tbind_done in H. destruct H as (e2 & [o2 b2] & f3 & H2 & H & ->).
  unfold tret in H. cbn [fst snd] in *. injection H as <- <- <-. exists e1, cs, e2. cbn [gw_enc gw_buffer]. rewrite app_nil_r. repeat split; assumption.
Qed.
Lemma encode_buffer_len m g o e i evs out e' : zlen (gw_buffer e) = cbuffer_bits -> encode_buffer m g o e i = Done evs (out, e') -> zlen (gw_buffer e') = cbuffer_bits.
Proof.
  intros L H. unfold encode_buffer in H. apply tbind_emit in H. destruct H as (f & H & ->).
  apply tbind_done in H. destruct H as (e1 & [cs st] & f2 & H1 & H & ->). apply tbind_done in H. destruct H as (e2 & [o2 b2] & f3 & H2 & H & ->).
  unfold tret in H. cbn [fst snd] in *. injection H as <- <- <-. cbn [gw_buffer]. destruct (gateway_encoder_octets_pf _ _ _ _ _ _ L H2) as (own & _ & _ & _ & X & _). exact X.
Qed.
Lemma reachable_len m g o e : encoder_reachable m g o e -> zlen (gw_buffer e) = cbuffer_bits.
Proof. intros H. induction H as [|e i evs out e' _ IH H]; [vm_compute; reflexivity|]. eapply encode_buffer_len; eassumption. Qed.
Lemma arrive_wire m cs qs buf evs out buf' : zlen buf = cbuffer_bits -> enc_writing m buf cs = Done evs (out, buf') -> cs <> [] ->
  Forall2 (fun c q => BRT (w_cpdu m c) p_cpdu q (cpdu_length c - excess_cbody (cp_body c))) cs qs ->
  0 <= total (fun c => excess_cbody (cp_body c)) cs <= 50 -> cparse out = CParsed qs.
Proof.
  intros L W Ne B T. destruct (own_split _ _ _ B) as (own & Eo & Lo & S). destruct (gateway_encoder_octets_pf _ _ _ _ _ _ L W) as (own' & Eo' & _ & Lout & _ & _ & Bits).
  assert (own' = own) by congruence. subst own'. clear Eo'. set (D := declared_bits cs) in *. set (X := total _ _) in *.
  assert (Hn : 8 * octets_for D < D + 8 /\ D <= 8 * octets_for D) by (unfold octets_for; pose proof (Z.div_mod (D + 7) 8); pose proof (Z.mod_pos_bound (D + 7) 8); lia).
  pose proof (zlen_nonneg own). assert (Lz : Z.of_nat (8 * length out) = 8 * octets_for D) by lia. unfold zlen in Lo, H.
  rewrite firstn_app in Bits. rewrite firstn_all2 in Bits by lia. unfold cparse. rewrite Bits. eapply cparse_split; [inversion B; subst; congruence|apply S].
  unfold zlen. rewrite firstn_length. lia.
Qed.
(*@C34
   For every history of datagrams and every datagram that parses: if all C-DIS PDUs made of it fit their wire fields and the lengths they declare exceed
   the bits they take by at most 50 in all, then a C-DIS receiver that parses the emitted datagram gets exactly these PDUs, in order - the same exercise,
   type and body, but for the parts of a body that do not survive C-DIS (C28). If no PDU is of a C-DIS type, an empty datagram is emitted. *)
Lemma gateway_encoder_delivers_pf : forall m g o e clock bytes ps evs out e', encoder_reachable m g o e -> parse m bytes = Parsed ps -> encode_buffer m g o e (clock, bytes) = Done evs (out, e') ->
  exists times cs, length times = length (filter in_cdis ps) /\ run (encode_step g o) (gw_enc e) (combine times (filter in_cdis ps)) = Some (cs, gw_enc e') /\
    (filter in_cdis ps = [] -> out = []) /\
    (filter in_cdis ps <> [] -> Forall sendable cs -> 0 <= total (fun c => excess_cbody (cp_body c)) cs <= 50 -> exists qs, cparse out = CParsed qs /\ Forall2 arrives qs cs).
Proof.
  intros m g o e clock bytes ps evs out e' R P H. apply reachable_len in R. destruct (encode_buffer_done _ _ _ _ _ _ _ _ _ _ P H) as (e1 & cs & e2 & H1 & H2 & _).
  destruct (gateway_encoder_types_pf _ _ _ _ _ _ _ _ _ H1) as (F & (times & Lt & Rn) & _). exists times, cs. split; [exact Lt|]. split; [exact Rn|]. split.
  - intros E. rewrite E in F. inversion F; subst cs. destruct (gateway_encoder_octets_pf _ _ _ _ _ _ R H2) as (own & _ & _ & Lo & _). destruct out; [reflexivity|discriminate Lo].
  - intros Ne Hs T. exists (map (fun c => MkCPdu (cut_header (cp_header c)) (img_cbody (cp_body c))) cs). split.
    + eapply arrive_wire; try eassumption; [intros ->; inversion F as [X|]; now apply Ne|].
      clear - Hs. induction Hs as [|c cs Hc Hs IH]; [constructor|]. constructor; [|exact IH]. rewrite <- bits_declared by (apply fits_wfits_cbody, Hc). now apply BRT_sendable.
    + clear - Hs. induction Hs as [|c cs Hc Hs IH]; [constructor|]. constructor; [|exact IH]. split; [reflexivity|]. split; [reflexivity|]. cbn [cp_body]. apply blank_img, fits_wfits_cbody, Hc.
Qed.
Lemma when_empty_range {A} (l : list A) : 0 <= when_empty l 5 <= 5. Proof. destruct l; cbn; lia. Qed.
Lemma simman_excess g o now est b c : simman_narrow b -> enc_body g o now est b = Some (c, StateUnaffected, est) -> 0 <= excess_cbody c <= 10.
Proof.
  intros H E. destruct b; cbn [simman_narrow] in H; try (destruct H; fail); cbn [enc_body] in E; injection E as <-; cbn [excess_cbody]; unfold excess_datums; try lia.
  all: match goal with |- 0 <= when_empty ?a 5 + when_empty ?b 5 <= 10 => pose proof (when_empty_range a); pose proof (when_empty_range b) end; lia.
Qed.
Lemma simman_step g o now est dst p : simman_pdu p -> in_cdis p = true /\ forall m, exists c q p', encode g o now est p = Some (c, StateUnaffected, est) /\ 0 <= excess_cbody (cp_body c) <= 10 /\
  BRT (w_cpdu m c) p_cpdu q (cpdu_length c - excess_cbody (cp_body c)) /\ decode Wrapping g o dst q = WOk [] (p', StateUnaffected, dst) /\
  simman_same (pdu_body p') (pdu_body p) /\ h_exercise (pdu_header p') = h_exercise (pdu_header p) /\ h_type (pdu_header p') = h_type (pdu_header p).
Proof.
  destruct p as [h b]. unfold simman_pdu. cbn [pdu_header pdu_body]. intros (W & N & U & T). split.
  { unfold in_cdis. cbn [pdu_header]. rewrite T. destruct b; cbn [simman_narrow] in N; try (destruct N; fail); reflexivity. }
  intros m. destruct (simman_trip g o now est dst b N W) as (c & c' & E & Ct & B & b' & D & S & Tb & l & L).
  unfold encode. cbn [pdu_header pdu_body]. rewrite E. set (ch := cp_header (cfinalize (enc_header h) c None)).
  assert (Hty : ch_type ch = body_type b) by exact T.
  assert (U8 : u8 (body_type b)) by (clear - N; unfold u8; destruct b; cbn [simman_narrow] in N; try (destruct N; fail); cbn; lia).
  unfold decode. destruct (calm_arith (12 + l)) as [k K].
  eexists; exists (MkCPdu (cut_header ch) c'). eexists. split; [reflexivity|]. split; [exact (simman_excess _ _ _ _ _ _ N E)|]. split; [|split].
  - unfold w_cpdu, p_cpdu, cpdu_length.
    eapply BRT_conv; [eapply BRT_bind; [apply BRT_cheader_cut; [exact U|change (ch_type (cp_header (cfinalize (enc_header h) c None))) with (ch_type ch); rewrite Hty; exact U8]|]|reflexivity|].
    + eapply BRT_bind; [|apply BRT_ret]. change (ch_type (cut_header _)) with (ch_type ch). rewrite Hty. apply B.
    + cbn [cfinalize cp_body]. lia.
  - cbn [cp_header cp_body]. rewrite D. unfold finalize. rewrite L. unfold with_length, wbind, wret, add16. rewrite K. reflexivity.
  - cbn [pdu_header pdu_body]. split; [exact S|]. split; [reflexivity|]. cbn. now rewrite Tb.
Qed.
(*@C34
   And for a datagram of at most five simulation management PDUs (C33) the whole way works, whatever was handled before: what the gateway emits is parsed
   on the C-DIS side into as many PDUs, which the C-DIS decoder, in any state, turns into the same PDUs again, with the same exercise, type and body. *)
Lemma gateway_encoder_simman_pf : forall m g o e clock bytes ps evs out e' dst, encoder_reachable m g o e -> parse m bytes = Parsed ps -> ps <> [] -> Forall simman_pdu ps -> zlen ps <= 5 ->
  encode_buffer m g o e (clock, bytes) = Done evs (out, e') ->
  exists qs ps', cparse out = CParsed qs /\ run (decode_step Wrapping g o) dst qs = Some (ps', dst) /\
    Forall2 (fun p' p => simman_same (pdu_body p') (pdu_body p) /\ h_exercise (pdu_header p') = h_exercise (pdu_header p) /\ h_type (pdu_header p') = h_type (pdu_header p)) ps' ps.
Proof.
  intros m g o e clock bytes ps evs out e' dst R P Ne Hs Len H. apply reachable_len in R. destruct (encode_buffer_done _ _ _ _ _ _ _ _ _ _ P H) as (e1 & cs & e2 & H1 & H2 & _). clear P H.
  revert H1 H2. generalize (gw_enc e) (gw_enc e') 0%nat. intros st st' k H1 H2.
  assert (X : exists qs ps', Forall2 (fun c q => BRT (w_cpdu m c) p_cpdu q (cpdu_length c - excess_cbody (cp_body c))) cs qs /\ 0 <= total (fun c => excess_cbody (cp_body c)) cs <= 10 * zlen ps /\
    (ps <> [] -> cs <> []) /\ run (decode_step Wrapping g o) dst qs = Some (ps', dst) /\
    Forall2 (fun p' p => simman_same (pdu_body p') (pdu_body p) /\ h_exercise (pdu_header p') = h_exercise (pdu_header p) /\ h_type (pdu_header p') = h_type (pdu_header p)) ps' ps).
  { clear - Hs H1. revert k st st' e1 cs H1. induction Hs as [|p ps Hp Hs IH]; intros k st st' e1 cs H1; cbn [encode_pdus] in H1.
    - unfold tret in H1. injection H1 as <- <- <-. exists [], []. repeat lazymatch goal with |- _ /\ _ => split end; try constructor; cbn; auto; unfold zlen; cbn; lia.
    - destruct (simman_step g o (clock k) st dst p Hp) as [I Z]. destruct (Z m) as (c & q & p' & E & X & B & D & S). rewrite supported_cdis, implemented_cdis, I in H1. cbn [negb] in H1.
      apply tbind_emit in H1. destruct H1 as (f1 & H1 & ->). rewrite E in H1. apply tbind_emit in H1. destruct H1 as (f2 & H1 & ->).
      apply tbind_done in H1. destruct H1 as (f3 & [cs1 st1] & f4 & H1 & Y & ->). unfold tret in Y. cbn [fst snd] in Y. injection Y as <- <- <-.
      destruct (IH _ _ _ _ _ H1) as (qs & ps' & A1 & A2 & _ & A4 & A5). exists (q :: qs), (p' :: ps').
      repeat lazymatch goal with |- _ /\ _ => split end.
      + constructor; assumption.
      + cbn [total fold_right]. unfold total in A2. lia.
      + cbn [total fold_right]. unfold total in A2. unfold zlen in *. cbn [length]. lia.
      + intros _. discriminate.
      + cbn [run]. unfold decode_step at 1. rewrite D, A4. reflexivity.
      + constructor; [exact S|exact A5]. }
  destruct X as (qs & ps' & A1 & A2 & A3 & A4 & A5). exists qs, ps'. split; [|split; assumption].
  apply (arrive_wire m cs qs _ _ _ _ R H2 (A3 Ne) A1). lia.
Qed.
(** a Stop/Freeze PDU at a given hour, an empty Comment PDU, and an Other PDU, as octets *)
Definition stop_octets (h : Z) : list Z := [7; 3; 14; 5; 0; 0; 0; 0; 0; 40; 0; 0; 0; 1; 0; 2; 0; 3; 0; 4; 0; 5; 0; 6; h; h; h; h; h; h; h; h; 1; 2; 0; 0; 0; 0; 0; 9].
Definition comment_octets : list Z := [7; 3; 22; 5; 0; 0; 0; 0; 0; 32; 0; 0; 0; 1; 0; 2; 0; 3; 0; 4; 0; 5; 0; 6; 0; 0; 0; 0; 0; 0; 0; 0].
Definition other_octets : list Z := [7; 3; 0; 0; 0; 0; 0; 0; 0; 12; 0; 0].
Definition written (own buf : list bool) : list bool := own ++ skipn (length own) buf.
Definition taken (n : Z) (own buf : list bool) : list Z := to_octets (firstn (Z.to_nat (8 * n)) (written own buf)).
Lemma encode_buffer_intro m g o e clock bytes ps evs cs st own n : zlen (gw_buffer e) = cbuffer_bits -> parse m bytes = Parsed ps -> encode_pdus g o clock 0 (gw_enc e) ps = Done evs (cs, st) ->
  own_bits m cs = Some own -> octets_for (declared_bits cs) = n -> 8 * n <= cbuffer_bits -> zlen own <= cbuffer_bits ->
  encode_buffer m g o e (clock, bytes) = Done (ReceivedBytesDis (zlen bytes) :: evs ++ [SentCDis n]) (taken n own (gw_buffer e), MkEncoder (written own (gw_buffer e)) st).
Proof.
  intros L P E O D H1 H2. unfold encode_buffer. cbn [fst snd]. rewrite P, E. unfold enc_writing. cbn [tbind emit fst snd]. 
  rewrite serialize_all_bits by (rewrite L; cbv; split; discriminate). rewrite O. cbn [run_at]. unfold splice. rewrite L. cbn [Z.leb Z.compare andb]. rewrite Z.add_0_l.
  replace (zlen own <=? cbuffer_bits) with true by lia. change (firstn (Z.to_nat 0) (gw_buffer e)) with (@nil bool). cbn [app].
  replace (Z.to_nat (zlen own)) with (length own) by (unfold zlen; lia). rewrite D. fold (written own (gw_buffer e)).
  assert (Lw : zlen (written own (gw_buffer e)) = cbuffer_bits) by (rewrite <- L; unfold written, zlen in *; rewrite app_length, skipn_length; lia).
  rewrite Lw. replace (8 * n <=? cbuffer_bits) with true by lia. cbn [tbind tret emit fst snd app]. unfold taken. rewrite ?app_nil_r. reflexivity.
Qed.
Definition own_of (bytes : list Z) : list bool :=
  match parse Checked bytes with Parsed ps => 
    match encode_pdus (MkGeo (fun x y z => (x, y, z)) (fun x y z => (x, y, z))) new_full_update (fun _ => 0) 0 enc_state_new ps with
    | Done _ (cs, _) => match own_bits Checked cs with Some own => own | None => [] end
    | Died _ => [] end
  | _ => [] end.
Definition after_stop : Encoder := MkEncoder (written (own_of (stop_octets 255)) (gw_buffer encoder_new)) enc_state_new.
Ltac enter := eapply encode_buffer_intro; [vm_compute; reflexivity|vm_compute; reflexivity|vm_compute; reflexivity|vm_compute; reflexivity|vm_compute; reflexivity|cbv; discriminate|cbv; discriminate].
Lemma after_stop_run g o clock : exists evs out, encode_buffer Checked g o encoder_new (clock, stop_octets 255) = Done evs (out, after_stop).
Proof. do 2 eexists. unfold after_stop. replace (own_of (stop_octets 255)) with ltac:(let v := eval vm_compute in (own_of (stop_octets 255)) in exact v) by (vm_compute; reflexivity). enter. Qed.
(*@ex*)
Example gateway_encoder_simman_example : forall g o clock, exists e ps evs out e', encoder_reachable Checked g o e /\ gw_buffer e <> gw_buffer encoder_new /\
  parse Checked (stop_octets 0 ++ comment_octets) = Parsed ps /\ zlen ps = 2 /\ Forall simman_pdu ps /\
  encode_buffer Checked g o e (clock, stop_octets 0 ++ comment_octets) = Done evs (out, e').
Proof.
  intros g o clock. destruct (after_stop_run g o clock) as (evs & out & H). exists (after_stop). do 4 eexists.
  split; [eapply reach_next; [apply reach_new|exact H]|]. split; [intros X; apply (f_equal (fun l => firstn 100 l)) in X; vm_compute in X; discriminate|]. split; [vm_compute; reflexivity|]. split; [reflexivity|]. split.
  - constructor; [|constructor; [|constructor]]; unfold simman_pdu; cbn -[Z.lt Z.le];
      unfold wf_StopFreeze, wf_Comment, wf_EntityId, wf_SimulationAddress, wf_ClockTime, datums_narrow, u8, u16, u32, i32, zlen; cbn -[Z.lt Z.le]; repeat lazymatch goal with |- _ /\ _ => split | |- Forall _ [] => constructor end; try reflexivity; lia.
  - enter.
Qed.
(*@ex*)
Example gateway_encoder_delivers_example : forall g o clock, exists ps evs out e' times cs, parse Checked (other_octets ++ stop_octets 0) = Parsed ps /\ zlen ps = 2 /\
  encode_buffer Checked g o encoder_new (clock, other_octets ++ stop_octets 0) = Done evs (out, e') /\
  run (encode_step g o) enc_state_new (combine times (filter in_cdis ps)) = Some (cs, gw_enc e') /\ zlen cs = 1 /\ Forall sendable cs /\ total (fun c => excess_cbody (cp_body c)) cs = 0.
Proof.
  intros g o clock. do 4 eexists. exists [0]. eexists. split; [vm_compute; reflexivity|]. split; [reflexivity|]. split; [enter|]. split; [vm_compute; reflexivity|].
  split; [reflexivity|]. split; [|reflexivity]. constructor; [|constructor]. unfold sendable. cbn -[Z.lt Z.le Z.pow].
  unfold fits_CStopFreeze, fits_CEntityId, body_matches, u8, ub, sb. cbn -[Z.lt Z.le Z.pow]. repeat lazymatch goal with |- _ /\ _ => split end; try reflexivity; lia.
Qed.
(*@C36
   What is emitted for a datagram does depend on the datagrams before it: an empty Comment PDU is sent in different octets by a new gateway and by one
   that sent a Stop/Freeze PDU before, with the codecs in the same state. The difference is what the earlier PDU left in the buffer. *)
Lemma gateway_encoder_fresh_refuted_pf : forall g o clock, exists e evs1 out1 e1 evs2 out2 e2, encoder_reachable Checked g o e /\ gw_enc e = gw_enc encoder_new /\
  encode_buffer Checked g o encoder_new (clock, comment_octets) = Done evs1 (out1, e1) /\ encode_buffer Checked g o e (clock, comment_octets) = Done evs2 (out2, e2) /\
  evs1 = evs2 /\ length out1 = length out2 /\ out1 <> out2.
Proof.
  intros g o clock. destruct (after_stop_run g o clock) as (evs & out & H). exists (after_stop). do 6 eexists. split; [eapply reach_next; [apply reach_new|exact H]|].
  split; [reflexivity|]. split; [enter|]. split; [enter|]. split; [reflexivity|].
  split; [vm_compute; reflexivity|]. vm_compute. discriminate.
Qed.
(*@C34
   The bound is sharp: a new gateway that receives one datagram of six empty Comment PDUs emits a datagram that is read as seven PDUs; the last one, of
   type 0, was never sent. *)
Lemma gateway_encoder_delivers_refuted_pf : forall g o clock, exists ps evs out e' qs, parse Checked (concat (repeat comment_octets 6)) = Parsed ps /\
  map (fun p => h_type (pdu_header p)) ps = [22; 22; 22; 22; 22; 22] /\
  encode_buffer Checked g o encoder_new (clock, concat (repeat comment_octets 6)) = Done evs (out, e') /\
  cparse out = CParsed qs /\ map (fun q => ch_type (cp_header q)) qs = [22; 22; 22; 22; 22; 22; 0].
Proof.
  intros g o clock. do 5 eexists. split; [vm_compute; reflexivity|]. split; [reflexivity|]. split; [enter|]. split; [vm_compute; reflexivity|]. reflexivity.
Qed.

(** ** The decoder *)
Lemma p_cpdu_foreign i r c : p_cpdu i = POk r c -> cin_cdis c = false -> cp_body c = CBUnsupported.
Proof.
  unfold p_cpdu, pbind. destruct (p_cheader i) as [r1 h|k|] eqn:Eh; [|discriminate|discriminate]. destruct (p_cbody (ch_type h) r1) as [r2 b|k|] eqn:Eb; [|discriminate|discriminate].
  intros H. unfold pret in H. injection H as <- <-. unfold cin_cdis. cbn [cp_header cp_body]. intros F. rewrite p_cbody_unsupported in Eb by exact F. unfold pret in Eb. now injection Eb.
Qed.
Lemma cparse_foreign bytes cs : cparse bytes = CParsed cs -> Forall (fun c => cin_cdis c = false -> cp_body c = CBUnsupported) cs.
Proof.
  intros H. apply cdis_parse_total_pf in H. destruct H as (_ & rest & S). induction S as [|i r a l rest E S IH]; [constructor|]. constructor; [|exact IH]. eapply p_cpdu_foreign; exact E.
Qed.
Lemma decode_foreign m g o st c : cp_body c = CBUnsupported -> exists p, decode m g o st c = WOk [] (p, StateUnaffected, st) /\ h_type (pdu_header p) = 0 /\ h_length (pdu_header p) = 12 /\ pdu_body p = BOther (MkOther None None []) .
Proof. intros H. unfold decode. rewrite H. cbn [dec_body]. destruct m; eexists; (split; [reflexivity|]); repeat split. Qed.
Lemma serialize_empty m p buf capacity : h_type (pdu_header p) = 0 -> h_length (pdu_header p) = 12 -> pdu_body p = BOther (MkOther None None []) -> 12 <= capacity ->
  exists bs, serialize m p buf capacity = (buf ++ bs, Written 12) /\ zlen bs = 12.
Proof.
  destruct p as [h b]. cbn [pdu_header pdu_body]. intros Ht Hl -> C. unfold serialize.
  assert (P : pdu_length m (MkPdu h (BOther (MkOther None None []))) = WOk [] 12) by (destruct m; reflexivity). rewrite P. replace (capacity <? 12) with false by lia.
  assert (exists bs, w_header h = WOk bs 12 /\ zlen bs = 12) as (bs & W & L).
  { unfold w_header. destruct (h_version h =? 7); [destruct (h_status h)|]; eexists; (split; [reflexivity|]); reflexivity. }
  exists bs. unfold w_pdu. cbn [pdu_header pdu_body w_body]. rewrite W. split; [|exact L]. assert (Wo : w_other m (MkOther None None []) = WOk [] 0) by reflexivity. assert (A : add16 m 12 0 = @WOk Z Z [] 12) by (destruct m; reflexivity).
  rewrite Wo. unfold wbind. rewrite A. cbn [app]. now rewrite app_nil_r.
Qed.
(*@C35
   What the gateway's decoder does with the PDUs of a datagram, for every datagram of octets, every state and as long as the send buffer has room for 12
   more octets: each PDU of a C-DIS type is counted as unimplemented and dropped; each other PDU gives an empty DIS PDU of type 0 (12 octets); and the
   decoder's state never changes. It never fails. *)
Lemma gateway_decoder_drops_pf : forall m g o capacity st bytes cs, (forall buf, 12 <= capacity buf) -> cparse bytes = CParsed cs ->
  exists evs out, decode_buffer m g o capacity st bytes = Done evs (out, st) /\
    zlen out = 12 * zlen (filter (fun c => negb (cin_cdis c)) cs) /\
    filter is_cunimplemented evs = map (fun c => UnimplementedDecodedPdu (ch_type (cp_header c)) (octets_for (ch_length (cp_header c)))) (filter cin_cdis cs) /\
    filter is_creceived evs = map (fun c => ReceivedCDis (ch_type (cp_header c)) (octets_for (ch_length (cp_header c)))) (filter (fun c => negb (cin_cdis c)) cs) /\
    filter is_decoded evs = map (fun _ => DecodedPdu 0 12) (filter (fun c => negb (cin_cdis c)) cs).
Proof.
  intros m g o capacity st bytes cs C P. pose proof (cparse_foreign _ _ P) as F. unfold decode_buffer. rewrite P.
  assert (exists evs ps, decode_pdus m g o st cs = Done evs (ps, st) /\ zlen ps = zlen (filter (fun c => negb (cin_cdis c)) cs) /\
    Forall (fun p => h_type (pdu_header p) = 0 /\ h_length (pdu_header p) = 12 /\ pdu_body p = BOther (MkOther None None [])) ps /\
    filter is_cunimplemented evs = map (fun c => UnimplementedDecodedPdu (ch_type (cp_header c)) (octets_for (ch_length (cp_header c)))) (filter cin_cdis cs) /\
    filter is_creceived evs = map (fun c => ReceivedCDis (ch_type (cp_header c)) (octets_for (ch_length (cp_header c)))) (filter (fun c => negb (cin_cdis c)) cs) /\
    filter is_decoded evs = map (fun _ => DecodedPdu 0 12) (filter (fun c => negb (cin_cdis c)) cs)) as (evs & ps & D & Lp & Fp & E1 & E2 & E3).
  { clear P. induction F as [|c cs Hc _ IH].
    - exists [], []. repeat split. constructor.
    - destruct IH as (evs & ps & D & Lp & Fp & E1 & E2 & E3). cbn [decode_pdus filter]. rewrite implemented_ccdis. destruct (cin_cdis c) eqn:I; cbn [negb].
      + rewrite D. eexists; exists ps. split; [reflexivity|]. cbn [app filter is_cunimplemented is_creceived is_decoded map]. rewrite E1. auto.
      + destruct (decode_foreign m g o st c (Hc eq_refl)) as (p & Dp & H0 & H12 & Hb). rewrite Dp, D. cbn [tbind emit tret fst snd app]. eexists; exists (p :: ps). split; [reflexivity|].
        cbn [app filter is_cunimplemented is_creceived is_decoded map]. rewrite app_nil_r, E1, E2, E3, H0, H12. repeat lazymatch goal with |- _ /\ _ => split end; auto.
        unfold zlen in *. cbn [length]. lia. }
  rewrite D. cbn [tbind emit fst snd].
  assert (X : forall buf n, exists out, dec_writing_all m capacity buf n ps = Done [] (out, n + 12 * zlen ps) /\ zlen out = zlen buf + 12 * zlen ps).
  { clear - C Fp. induction Fp as [|p ps (H0 & H12 & Hb) _ IH]; intros buf n; cbn [dec_writing_all].
    - exists buf. unfold tret, zlen. cbn. split; [do 2 f_equal; lia|lia].
    - destruct (serialize_empty m p buf (capacity buf) H0 H12 Hb (C buf)) as (bs & S & L). rewrite S. destruct (IH (buf ++ bs) (n + 12)) as (out & E & Lo). exists out. rewrite E. split; [|rewrite Lo, zlen_app];
        replace (zlen (p :: ps)) with (1 + zlen ps) by (unfold zlen; cbn [length]; lia); [do 2 f_equal; lia|lia]. }
  destruct (X [] 0) as (out & W & Lo). unfold dec_writing. rewrite W. cbn [tbind emit tret fst snd app]. do 2 eexists. split; [reflexivity|].
  split; [rewrite Lo, Lp; reflexivity|]. cbn [filter is_cunimplemented is_creceived is_decoded]. rewrite !filter_app, E1, E2, E3. cbn. rewrite !app_nil_r. auto.
Qed.
(*@C35
   So the property fails for every datagram of C-DIS PDUs: nothing of it is forwarded. *)
Lemma gateway_decoder_refuted_pf : forall m g o capacity st bytes cs, (forall buf, 12 <= capacity buf) -> cparse bytes = CParsed cs -> Forall (fun c => cin_cdis c = true) cs ->
  exists evs, decode_buffer m g o capacity st bytes = Done evs ([], st) /\ filter is_decoded evs = [].
Proof.
  intros m g o capacity st bytes cs C P F. destruct (gateway_decoder_drops_pf m g o capacity st bytes cs C P) as (evs & out & D & L & _ & _ & E).
  assert (X : filter (fun c => negb (cin_cdis c)) cs = []) by (clear - F; induction F as [|c cs H _ IH]; [reflexivity|]; cbn [filter]; rewrite H; exact IH).
  rewrite X in L, E. exists evs. split; [|exact E]. destruct out; [exact D|]. unfold zlen in L. cbn [length] in L. change (Z.of_nat (length (@nil CPdu))) with 0 in L. lia.
Qed.
(*@ex*)
Example gateway_decoder_example : exists cs, cparse [70; 28; 0; 0; 0; 1; 152; 0; 0; 128; 64; 24; 8; 2; 128; 192; 0; 0; 0; 224; 0; 0; 1; 2; 128; 144] = CParsed cs /\ map (fun c => ch_type (cp_header c)) cs = [14] /\ Forall (fun c => cin_cdis c = true) cs.
Proof. eexists. split; [vm_compute; reflexivity|]. split; [reflexivity|]. repeat constructor. Qed.
(*@ex*)
Example gateway_decoder_foreign_example : exists cs, cparse [64; 0; 0; 0; 0; 0; 0; 0] = CParsed cs /\ map cin_cdis cs = [false].
Proof. eexists. split; [vm_compute; reflexivity|]. reflexivity. Qed.

(** * Lemmas for the C-DIS PDU properties C26-C29 *)
From Coq Require Import ZArith List Lia Bool.
From Verif Require Import Base DisCommon DisLists DisSimman DisHeader DisPacket CdisBase CdisRecords CdisBodies1 CdisBodies2 CdisIff CdisPdu SpecCdis SpecCdisPdu.
From Verif Require Import L_CdisBits.
Import ListNotations. Open Scope Z_scope.

(** ** C26 *)
(*@C26
   A header whose fields fit the wire (2-bit version, 8-bit exercise and PDU type, 26-bit timestamp, 14-bit length, a status of the kind the PDU
   type has) is read back unchanged from any cursor, and the number of bits written is the length the header reports: 63 or 67. *)
Lemma cdis_header_roundtrip_pf : forall h,
  0 <= ch_version h < 4 -> 0 <= ch_exercise h < 256 -> 0 <= ch_type h < 256 -> 0 <= ch_timestamp h < 67108864 -> 0 <= ch_length h < 16384 ->
  status_ok (ch_type h) (ch_status h) ->
  reads_back (w_cheader h) p_cheader h (len_cheader h) /\ writes_bits (w_cheader h) (len_cheader h) /\
  len_cheader h = (if ch_exercise h <? 16 then 63 else 67).
Proof.
  intros h H1 H2 H3 H4 H5 H6.
  assert (F : fits_CHeader h) by (unfold fits_CHeader, ub; change (2 ^ 2) with 4; change (2 ^ 8) with 256; change (2 ^ 26) with 67108864; change (2 ^ 14) with 16384; auto 10).
  split; [now apply BRT_reads, BRT_cheader|]. split; [now eapply BRT_writes, BRT_cheader|].
  unfold len_cheader, len_uvint8, len_vint, uvint8_class, uvint8_bits. destruct (Z.leb_spec (ch_exercise h) 15), (Z.ltb_spec (ch_exercise h) 16); cbn; lia.
Qed.
Lemma BRT_cheader_any h : wf_CHeader h ->
  BRT (w_cheader h) p_cheader (MkCHeader (ch_version h mod 4) (ch_exercise h) (ch_type h) (ch_timestamp h mod 67108864) (ch_length h mod 16384)
    (parse_status (ch_type h) (write_status (ch_type h) (ch_status h)))) (len_cheader h).
Proof.
  destruct h as [v e t ts l s]. unfold wf_CHeader, w_cheader, p_cheader, len_cheader. cbn [ch_version ch_exercise ch_type ch_timestamp ch_length ch_status]. intros (H1 & H2 & H3 & H4 & H5).
  assert (He : ub 8 e) by (unfold u8, ub in *; change (2 ^ 8) with 256; lia).
  assert (Ht : ub 8 t) by (unfold u8, ub in *; change (2 ^ 8) with 256; lia).
  pose proof (write_status_u8 t s) as Hs.
  assert (Hs' : ub 8 (write_status t s)) by (unfold u8, ub in *; change (2 ^ 8) with 256; lia).
  change 4 with (2 ^ 2). change 67108864 with (2 ^ 26). change 16384 with (2 ^ 14).
  eapply BRT_conv; [|reflexivity|].
  { eapply BRT_bind; [apply BRT_put_mod; lia|cbv beta]. eapply BRT_bind; [now apply BRT_uvint8|cbv beta]. eapply BRT_bind; [now apply BRT_put; [lia|]|cbv beta].
    eapply BRT_bind; [apply BRT_put_mod; lia|cbv beta]. eapply BRT_bind; [apply BRT_put_mod; lia|cbv beta]. eapply BRT_bind; [now apply BRT_put; [lia|]|cbv beta].
    apply BRT_ret. }
  lia.
Qed.
(*@C26
   For every header of the Rust types, whatever its values: the bits written are the reported length, and what is read back is the header with
   the version, timestamp and length reduced to the 2, 26 and 14 bits of their fields, and the status as the DIS status octet carries it. *)
Lemma cdis_header_any_pf : forall h, wf_CHeader h ->
  reads_back (w_cheader h) p_cheader (MkCHeader (ch_version h mod 4) (ch_exercise h) (ch_type h) (ch_timestamp h mod 67108864) (ch_length h mod 16384)
    (parse_status (ch_type h) (write_status (ch_type h) (ch_status h)))) (len_cheader h).
Proof. intros h H. now apply BRT_reads, BRT_cheader_any. Qed.
(*@C26
   Hence no header that announces a PDU of 16384 bits (2048 octets) or more is read back as it was written. *)
Lemma cdis_long_header_refuted_pf : forall h, wf_CHeader h -> 16384 <= ch_length h ->
  exists h', reads_back (w_cheader h) p_cheader h' (len_cheader h) /\ ch_length h' <> ch_length h.
Proof.
  intros h H Hl. eexists. split; [apply cdis_header_any_pf; exact H|]. cbn [ch_length]. pose proof (Z.mod_pos_bound (ch_length h) 16384). lia.
Qed.
Definition ex_cheader (ty : Z) : CHeader := MkCHeader 1 7 ty 123456 200 (parse_status ty 0).
(*@ex*)
Example cdis_header_example : status_ok 1 (ch_status (ex_cheader 1)) /\ len_cheader (ex_cheader 1) = 63.
Proof. split; [apply parse_status_ok; unfold u8; lia|reflexivity]. Qed.

(** ** C27 *)
Lemma zsum_total {A} (f : A -> Z) l : zsum (map f l) = total f l.
Proof. induction l as [|x l IH]; [reflexivity|]. change (f x + zsum (map f l) = f x + total f l). now rewrite IH. Qed.
Lemma total_sub {A} (f g h : A -> Z) (P : A -> Prop) l : (forall x, P x -> f x = g x + h x) -> Forall P l -> total f l = total g l + total h l.
Proof. intros H. induction 1 as [|x l Hx _ IH]; [reflexivity|]. change (f x + total f l = g x + total g l + (h x + total h l)). rewrite IH, (H x Hx). lia. Qed.
Lemma zsum_sub {A} (f g h : A -> Z) (P : A -> Prop) l : (forall x, P x -> f x = g x + h x) -> Forall P l -> zsum (map f l) = zsum (map g l) + total h l.
Proof. intros H F. rewrite !zsum_total. eapply total_sub; eassumption. Qed.
Lemma excess_beam b : len_cbeam_data b = len_cbeam_data (img_cbeam_data b) + excess_beam_data b.
Proof. unfold len_cbeam_data, img_cbeam_data, excess_beam_data. cbn [cbd_az_center cbd_az_sweep cbd_el_center cbd_el_sweep cbd_sync]. lia. Qed.
Lemma excess_ceb b : len_ceb b = bits_ceb b + excess_emitter_beam b.
Proof. unfold len_ceb, bits_ceb, excess_emitter_beam, absent. destruct (ceb_fp_index b), (ceb_bd_index b); cbv beta delta [opt_len]; cbn iota; lia. Qed.
Lemma excess_cesy s : fits_CEmitterSystem s -> len_cesy s = bits_cesy s + excess_emitter_system s.
Proof.
  intros (_ & _ & H & _ & _ & _ & _). unfold len_cesy, bits_cesy, excess_emitter_system, cesy_details.
  rewrite (zsum_sub len_ceb bits_ceb excess_emitter_beam (fun _ => True) (cesy_beams s)) by (intros; auto using excess_ceb || (apply Forall_forall; auto)).
  destruct (cesy_name s), (cesy_function s); try discriminate H; cbv beta delta [opt_len is_some]; cbn iota; cbn [andb]; lia.
Qed.
Lemma when_nonempty {A} (l : list A) n : when_empty l n = if nonempty l then 0 else n.
Proof. now destruct l. Qed.
Lemma excess_datums_ok d : fits_cDatumSpec d -> len_cdatum_spec d = bits_cdatums d + excess_datums d.
Proof. intros H. rewrite (len_bits_datums d H). unfold excess_datums. rewrite !when_nonempty. lia. Qed.
Lemma excess_cnt {A} (l : list A) : zlen l < 256 -> len_uvint8 (count8 (zlen l)) = cnt_bits l + when_empty l 5.
Proof. intros H. unfold count8, cnt_bits. replace (zlen l <? 256) with true by lia. destruct l; reflexivity || (cbn [nonempty when_empty]; lia). Qed.
Lemma excess_idrs l : 5 + zsum (map len_cidr l) = bits_cidrs l + when_empty l 5.
Proof. unfold bits_cidrs. rewrite when_nonempty. destruct (nonempty l); lia. Qed.
Lemma excess_ok b : wfits_cbody b -> len_cbody b = bits_cbody b + excess_cbody b.
Proof.
  destruct b; cbn [wfits_cbody len_cbody bits_cbody excess_cbody]; intros H;
    try lazymatch goal with |- ?l _ = ?r _ + 0 => rewrite Z.add_0_r; unfold l, r; reflexivity
                       | |- _ = _ + 0 => rewrite Z.add_0_r; reflexivity end.
  - destruct H as (_ & _ & _ & _ & H). unfold len_cactreq, bits_cactreq. rewrite (excess_datums_ok _ H). lia.
  - destruct H as (_ & _ & _ & _ & H). unfold len_cactres, bits_cactres. rewrite (excess_datums_ok _ H). lia.
  - destruct H as (_ & _ & _ & _ & (_ & H1) & (_ & H2)). unfold len_cquery, bits_cquery. rewrite !excess_cnt by assumption. lia.
  - destruct H as (_ & _ & _ & H). unfold len_csetdata, bits_csetdata. rewrite (excess_datums_ok _ H). lia.
  - destruct H as (_ & _ & _ & H). unfold len_cdata, bits_cdata. rewrite (excess_datums_ok _ H). lia.
  - destruct H as (_ & _ & _ & H). unfold len_cevent, bits_cevent. rewrite (excess_datums_ok _ H). lia.
  - destruct H as (_ & _ & H). unfold len_ccomment, bits_ccomment. rewrite (excess_datums_ok _ H). lia.
  - destruct H as (_ & _ & _ & _ & H5 & _ & H7 & _). unfold len_cemission, bits_cemission.
    rewrite (zsum_sub len_cbeam_data (fun b => len_cbeam_data (img_cbeam_data b)) excess_beam_data _ (CEmission_beams x) (fun b _ => excess_beam b) H5).
    rewrite (zsum_sub len_cesy bits_cesy excess_emitter_system _ (CEmission_systems x) excess_cesy H7). lia.
  - unfold len_ctransmitter, bits_ctransmitter, octets8_bits. rewrite when_nonempty. unfold absent.
    assert (E : nonempty (CTransmitter_modparams x) = false -> zlen (CTransmitter_modparams x) = 0) by (destruct (CTransmitter_modparams x); [reflexivity|discriminate]).
    destruct (nonempty (CTransmitter_modparams x)); [clear E|rewrite (E eq_refl)];
    destruct (CTransmitter_ptype x), (CTransmitter_pattern x), (CTransmitter_power x), (CTransmitter_crypto x), (CTransmitter_key x); cbv beta delta [opt_len]; cbn iota; lia.
  - unfold len_csignal, bits_csignal. lia.
  - unfold len_ciff, bits_ciff.
    assert (E2 : opt_len len_cl2 (CIff_layer2 x) = opt_len bits_cl2 (CIff_layer2 x) + match CIff_layer2 x with Some l => excess_beam_data (cl2_beam l) | None => 0 end).
    { destruct (CIff_layer2 x) as [l|]; cbn [opt_len]; [|reflexivity]. unfold len_cl2, bits_cl2. rewrite (excess_beam (cl2_beam l)). lia. }
    assert (E4 : opt_len len_cl4 (CIff_layer4 x) = opt_len bits_cl4 (CIff_layer4 x) + match CIff_layer4 x with Some l => when_empty (cl4_records l) 5 | None => 0 end).
    { destruct (CIff_layer4 x) as [l|]; cbn [opt_len]; [|reflexivity]. unfold len_cl4, bits_cl4. pose proof (excess_idrs (cl4_records l)). lia. }
    assert (E5 : opt_len len_cl5 (CIff_layer5 x) = opt_len bits_cl5 (CIff_layer5 x) + match CIff_layer5 x with Some l => when_empty (cl5_records l) 5 | None => 0 end).
    { destruct (CIff_layer5 x) as [l|]; cbn [opt_len]; [|reflexivity]. unfold len_cl5, bits_cl5. pose proof (excess_idrs (cl5_records l)). lia. }
    rewrite E2, E4, E5. lia.
Qed.
(*@C27
   For every C-DIS body whose fields fit, at any cursor: the cursor advances by exactly the declared body length less [excess_cbody], a closed
   formula of five kinds of slips (counts of empty lists, the optional transmitter fields, the beam data, the emitter system numbers and beam
   indices, two constants). It is zero for ES, Fire, Detonation, Collision, Create/RemoveEntity, Start, Stop, Acknowledge, Designator, Receiver. *)
Lemma cdis_body_bits_pf : forall m b, wfits_cbody b -> writes_bits (w_cbody m b) (len_cbody b - excess_cbody b).
Proof. intros m b H. apply BLen_writes. eapply BLen_conv; [now apply BLen_cbody|]. rewrite (excess_ok b H). lia. Qed.
(*@C27
   Whenever that excess is zero the declared length is exact. *)
Lemma cdis_body_bits_exact_pf : forall m b, wfits_cbody b -> excess_cbody b = 0 -> writes_bits (w_cbody m b) (len_cbody b).
Proof. intros m b H E. pose proof (cdis_body_bits_pf m b H) as W. rewrite E, Z.sub_0_r in W. exact W. Qed.
(*@C27
   In particular for these eleven PDU types and for every combination of their optional fields. *)
Lemma cdis_body_bits_exact_types_pf : forall m b t, wfits_cbody b -> ctype_of b = Some t -> In t [1; 2; 3; 4; 11; 12; 13; 14; 15; 24; 27] ->
  writes_bits (w_cbody m b) (len_cbody b).
Proof.
  intros m b t H E I. apply cdis_body_bits_exact_pf; [exact H|]. destruct b; cbn in E; inversion E; subst; try reflexivity;
  cbn in I; repeat (destruct I as [I|I]; [discriminate I|]); contradiction.
Qed.
Lemma writes_unique w n n' : 0 <= n -> 0 <= n' -> writes_bits w n -> writes_bits w n' -> n = n'.
Proof.
  intros Hn Hn' H H'. destruct (H (repeat false (Z.to_nat (n + n'))) 0 ltac:(lia)) as [H1 _]. destruct (H' (repeat false (Z.to_nat (n + n'))) 0 ltac:(lia)) as [H2 _].
  assert (L : zlen (repeat false (Z.to_nat (n + n'))) = n + n') by (unfold zlen; rewrite repeat_length; lia).
  destruct (H1 ltac:(lia)) as (b1 & E1 & _). destruct (H2 ltac:(lia)) as (b2 & E2 & _). rewrite E1 in E2. inversion E2. lia.
Qed.
Definition ex_id : CEntityId := MkCEntityId 1 2 3.
Definition ex_comment : CComment := MkCComment ex_id ex_id (MkDatumSpecification [MkFixedDatum 5 6] []).
Lemma ex_comment_fits : fits_CComment ex_comment.
Proof.
  unfold fits_CComment, ex_comment, fits_cDatumSpec, fits_cFixedDatum, fits_CEntityId, ex_id, ub, zlen; cbn.
  repeat split; try lia; repeat constructor; cbn; lia.
Qed.
(*@C27
   The full claim fails: a Comment PDU with one fixed datum and no variable datum declares five bits more than it writes; so does every body with
   an empty datum list. *)
Lemma cdis_body_bits_refuted_pf : exists b, wfits_cbody b /\ (forall m, ~ writes_bits (w_cbody m b) (len_cbody b)) /\ forall m, writes_bits (w_cbody m b) (len_cbody b - 5).
Proof.
  exists (CBComment ex_comment). split; [exact ex_comment_fits|].
  assert (W : forall m, writes_bits (w_cbody m (CBComment ex_comment)) (len_cbody (CBComment ex_comment) - 5)) by (intros m; exact (cdis_body_bits_pf m (CBComment ex_comment) ex_comment_fits)).
  split; [|exact W]. intros m H. assert (E : len_cbody (CBComment ex_comment) = len_cbody (CBComment ex_comment) - 5) by (apply (writes_unique _ _ _) with (3 := H) (4 := W m); vm_compute; discriminate). lia.
Qed.
(*@C27
   No Signal PDU writes the length it declares (two bits too many), and no Emission PDU without beam data and systems (one bit too many). *)
Lemma cdis_signal_emission_bits_refuted_pf : forall m,
  (forall x, fits_CSignal x -> writes_bits (w_csignal m x) (len_csignal x - 2)) /\
  (forall x, wfits_CEmission x -> CEmission_beams x = [] -> CEmission_systems x = [] -> writes_bits (w_cemission m x) (len_cemission x - 1)).
Proof.
  intros m. split.
  - intros x H. exact (cdis_body_bits_pf m (CBSignal x) H).
  - intros x H E1 E2. pose proof (cdis_body_bits_pf m (CBEmission x) H) as W. cbn [w_cbody len_cbody excess_cbody] in W. rewrite E1, E2 in W. exact W.
Qed.
(*@C27
   The length of a finalized PDU is the header's and the body's declared length modulo 2^16, so for the types above and PDUs below 65536 bits
   the length field of the header is exactly the number of bits of the whole PDU. *)
Lemma cdis_finalized_length_pf : forall m h b ts, 0 <= ch_exercise h < 256 -> 0 <= ch_version h < 4 -> 0 <= ch_type h < 256 -> 0 <= ch_timestamp h < 67108864 ->
  (forall t, ts = Some t -> 0 <= t < 67108864) -> status_ok (ch_type h) (ch_status h) ->
  wfits_cbody b -> excess_cbody b = 0 -> len_cheader h + len_cbody b < 16384 ->
  ch_length (cp_header (cfinalize h b ts)) = len_cheader h + len_cbody b /\
  writes_bits (w_cpdu m (cfinalize h b ts)) (ch_length (cp_header (cfinalize h b ts))).
Proof.
  intros m h b ts H1 H2 H3 H4 H5 H6 Hb E Hl.
  assert (P1 : 0 <= len_cheader h) by (unfold len_cheader, len_uvint8, len_vint, uvint8_bits; destruct (_ =? _); lia).
  assert (P2 : 0 <= len_cbody b) by (pose proof (excess_ok b Hb) as Hx; destruct (BLen_cbody Checked b Hb) as (bs & _ & Hz); pose proof (zlen_nonneg bs); lia).
  assert (L : ch_length (cp_header (cfinalize h b ts)) = len_cheader h + len_cbody b) by (unfold cfinalize; cbn [cp_header ch_length]; apply Z.mod_small; lia).
  split; [exact L|]. apply BLen_writes. eapply BLen_conv; [apply BLen_cpdu|].
  - split; [|exact Hb]. unfold fits_CHeader, cfinalize, ub. cbn [cp_header ch_version ch_exercise ch_type ch_timestamp ch_length ch_status].
    change (2 ^ 2) with 4; change (2 ^ 8) with 256; change (2 ^ 26) with 67108864; change (2 ^ 14) with 16384. rewrite Z.mod_small by lia.
    split; [lia|]. split; [lia|]. split; [lia|]. split; [destruct ts as [t|]; [apply H5; reflexivity|lia]|]. split; [lia|exact H6].
  - rewrite L. unfold bits_cpdu, cfinalize. cbn [cp_header cp_body]. rewrite (excess_ok b Hb), E.
    unfold len_cheader. cbn [ch_exercise]. lia.
Qed.

(** ** C28 *)
Lemma blank_loc w : fits_CWorldCoordinates w -> blank_location (img_cwc w) = blank_location w.
Proof.
  intros (_ & _ & H & _). unfold sb in H. change (2 ^ (24 - 1)) with 8388608 in H. unfold blank_location, img_cwc, img24. cbn [cwc_alt].
  destruct (Z.ltb_spec (cwc_alt w) (-1048576)).
  - replace (cwc_alt w + 16777216 <? -1048576) with false by lia. reflexivity.
  - replace (cwc_alt w <? -1048576) with false by lia. reflexivity.
Qed.
Lemma blank_loc_opt o : (forall a, o = Some a -> fits_CWorldCoordinates a) -> option_map blank_location (option_map (fun a => img_cwc a) o) = option_map blank_location o.
Proof. destruct o as [w|]; cbn [option_map]; [|reflexivity]. intros H. now rewrite blank_loc by (apply H; reflexivity). Qed.
Lemma blank_img b : wfits_cbody b -> blank_lossy (img_cbody b) = blank_lossy b.
Proof.
  destruct b; intros H; try reflexivity.
  - unfold img_cbody, blank_lossy, img_ces. cbn [CEntityState_location].
    rewrite blank_loc_opt; [reflexivity|]. cbn [wfits_cbody] in H. unfold fits_CEntityState in H. tauto.
  - unfold img_cbody, blank_lossy, img_cfire. cbn [CFire_location]. rewrite blank_loc; [reflexivity|]. cbn [wfits_cbody] in H. unfold fits_CFire in H. tauto.
  - unfold img_cbody, blank_lossy, img_cdetonation. cbn [CDetonation_location]. rewrite blank_loc; [reflexivity|]. cbn [wfits_cbody] in H. unfold fits_CDetonation in H. tauto.
  - unfold img_cbody, blank_lossy, img_cemission. cbn [CEmission_beams]. rewrite map_map. reflexivity.
  - unfold img_cbody, blank_lossy, img_cdesignator. cbn [CDesignator_spot_location].
    rewrite blank_loc_opt; [reflexivity|]. cbn [wfits_cbody] in H. unfold fits_CDesignator in H. tauto.
  - unfold img_cbody, blank_lossy, img_ctransmitter. cbn [CTransmitter_antenna].
    rewrite blank_loc_opt; [reflexivity|]. cbn [wfits_cbody] in H. unfold fits_CTransmitter in H. tauto.
  - unfold img_cbody, blank_lossy, img_ciff. cbn [CIff_layer2 CIff_layer3 CIff_layer4 CIff_layer5].
    destruct (CIff_layer2 x), (CIff_layer3 x), (CIff_layer4 x), (CIff_layer5 x); reflexivity.
Qed.
Lemma img_no_lossy b : no_lossy_parts b -> img_cbody b = b.
Proof.
  destruct b; cbn [no_lossy_parts img_cbody]; intros H; try reflexivity; try contradiction.
  - unfold img_ces. rewrite H. destruct x; cbn in *; now subst.
  - unfold img_cemission. rewrite H. destruct x; cbn in *; now subst.
  - unfold img_cdesignator. rewrite H. destruct x; cbn in *; now subst.
  - unfold img_ctransmitter. rewrite H. destruct x; cbn in *; now subst.
  - destruct H as (H2 & H3 & H4 & H5). unfold img_ciff. rewrite H2, H3, H4, H5. destruct x; cbn in *; now subst.
Qed.
Lemma bits_declared p : wfits_cbody (cp_body p) -> bits_cpdu p = cpdu_length p - excess_cbody (cp_body p).
Proof. intros H. unfold bits_cpdu, cpdu_length. rewrite (excess_ok _ H). lia. Qed.
(*@C28
   Every PDU that fits the wire is read back from any cursor as the same header and body, with every combination of the optional fields present or
   absent, except for the lossy parts that [blank_lossy] blanks out: latitude and longitude, the sweep and elevation of beam data, and the length
   in IFF layer headers. [fits_CPdu] leaves out emissions with emitter systems and transmitters without variable parameters; see the refutations. *)
Lemma cdis_pdu_roundtrip_pf : forall m p, fits_CPdu p ->
  exists q, reads_back (w_cpdu m p) p_cpdu q (cpdu_length p - excess_cbody (cp_body p)) /\ same_but_lossy q p.
Proof.
  intros m p H. exists (img_cpdu p). assert (W : wfits_cbody (cp_body p)) by (apply fits_wfits_cbody; apply H).
  rewrite <- bits_declared by exact W. split; [now apply BRT_reads, BRT_cpdu|]. split; [reflexivity|]. now apply blank_img.
Qed.
(*@C28
   When none of the lossy parts is there, the PDU itself is read back. *)
Lemma cdis_pdu_roundtrip_exact_pf : forall m p, fits_CPdu p -> no_lossy_parts (cp_body p) ->
  reads_back (w_cpdu m p) p_cpdu p (cpdu_length p - excess_cbody (cp_body p)).
Proof.
  intros m p H N. assert (W : wfits_cbody (cp_body p)) by (apply fits_wfits_cbody; apply H).
  rewrite <- bits_declared by exact W. apply BRT_reads. eapply BRT_conv; [now apply BRT_cpdu| |reflexivity].
  unfold img_cpdu. rewrite img_no_lossy by exact N. now destruct p.
Qed.
Lemma p_cheader_consumes i r h : p_cheader i = POk r h -> zlen r + 58 <= zlen i.
Proof.
  assert (T : forall n (i r : list bool) a, 0 <= n -> btake n i = POk r a -> zlen r + n = zlen i).
  { intros n i0 r0 a Hn. unfold btake. destruct (Z.ltb_spec (zlen i0) n); [discriminate|]. intros E. inversion E. rewrite zlen_skipn by lia. lia. }
  unfold p_cheader, pbind.
  destruct (btake 2 i) as [r1 v| |] eqn:E1; try discriminate.
  destruct (p_uvint8 r1) as [r2 e| |] eqn:E2; try discriminate.
  destruct (btake 8 r2) as [r3 ty| |] eqn:E3; try discriminate.
  destruct (btake 26 r3) as [r4 ts| |] eqn:E4; try discriminate.
  destruct (btake 14 r4) as [r5 l| |] eqn:E5; try discriminate.
  destruct (btake 8 r5) as [r6 st| |] eqn:E6; try discriminate.
  intros E. inversion E; subst. apply T in E1, E3, E4, E5, E6; try lia.
  destruct (BExt_uvint 1 uvint8_bits _ _ _ E2) as [[c ->] _]. rewrite zlen_app in E1. pose proof (zlen_nonneg c). lia.
Qed.
Lemma p_cpdu_consumes i r p : p_cpdu i = POk r p -> zlen r + 58 <= zlen i.
Proof.
  unfold p_cpdu, pbind. destruct (p_cheader i) as [r1 h| |] eqn:E1; try discriminate. destruct (p_cbody (ch_type h) r1) as [r2 b| |] eqn:E2; try discriminate.
  intros E. inversion E; subst. apply p_cheader_consumes in E1. destruct (BExt_cbody _ _ _ _ E2) as [[c ->] _]. rewrite zlen_app in E1. pose proof (zlen_nonneg c). lia.
Qed.
Lemma p_cpdu_short i : zlen i < 58 -> exists k, p_cpdu i = PErr k.
Proof.
  intros H. pose proof (BSafe_cpdu i) as S. destruct (p_cpdu i) as [r p|k|] eqn:E; [|eauto|contradiction].
  apply p_cpdu_consumes in E. pose proof (zlen_nonneg r). lia.
Qed.
Lemma cparse_split i l rest : l <> [] -> Split p_cpdu i l rest -> cparse_bits i = CParsed l.
Proof.
  intros H S. unfold cparse_bits. rewrite (many1_complete p_cpdu) with (l := l) (rest := rest); auto.
  intros i0 r a E. apply p_cpdu_consumes in E. lia.
Qed.
Definition total_bits (ps : list CPdu) : Z := total (fun p => cpdu_length p - excess_cbody (cp_body p)) ps.
Lemma fits_bits p : fits_CPdu p -> 0 <= cpdu_length p - excess_cbody (cp_body p).
Proof.
  intros H. rewrite <- bits_declared by (apply fits_wfits_cbody; apply H). destruct (BRT_cpdu Checked p H) as (bs & _ & E & _). pose proof (zlen_nonneg bs). lia.
Qed.
Lemma splice_app buf c a b : 0 <= c -> c + zlen a + zlen b <= zlen buf ->
  exists b1, splice buf c a = Some b1 /\ zlen b1 = zlen buf /\ splice b1 (c + zlen a) b = splice buf c (a ++ b).
Proof.
  intros Hc Hl. pose proof (zlen_nonneg a). pose proof (zlen_nonneg b). unfold splice at 1.
  replace (0 <=? c) with true by lia. replace (c + zlen a <=? zlen buf) with true by lia. cbn [andb]. eexists. split; [reflexivity|].
  assert (L : zlen (firstn (Z.to_nat c) buf ++ a ++ skipn (Z.to_nat (c + zlen a)) buf) = zlen buf) by (rewrite !zlen_app, zlen_firstn, zlen_skipn by lia; lia).
  split; [exact L|]. unfold splice. rewrite L, zlen_app.
  replace (0 <=? c + zlen a) with true by lia. replace (c + zlen a + zlen b <=? zlen buf) with true by lia. replace (c + (zlen a + zlen b) <=? zlen buf) with true by lia.
  replace (0 <=? c) with true by lia. cbn [andb]. f_equal.
  assert (La : length (firstn (Z.to_nat c) buf) = Z.to_nat c) by (rewrite firstn_length; unfold zlen in *; lia).
  assert (Lb : length a = Z.to_nat (zlen a)) by (unfold zlen; lia).
  rewrite (app_assoc (firstn _ buf) a). rewrite firstn_app.
  replace (firstn (Z.to_nat (c + zlen a)) (firstn (Z.to_nat c) buf ++ a)) with (firstn (Z.to_nat c) buf ++ a) by (symmetry; apply firstn_all2; rewrite app_length; lia).
  replace (Z.to_nat (c + zlen a) - length (firstn (Z.to_nat c) buf ++ a))%nat with 0%nat by (rewrite app_length; lia). cbn [firstn]. rewrite app_nil_r.
  rewrite <- !app_assoc. do 3 f_equal.
  rewrite app_assoc, skipn_app. rewrite skipn_all2 by (rewrite app_length; lia). cbn [app]. rewrite skipn_skipn_add. f_equal. rewrite app_length. lia.
Qed.
Lemma splice_len buf c a b1 : splice buf c a = Some b1 -> zlen b1 = zlen buf.
Proof.
  pose proof (zlen_nonneg a). unfold splice. destruct (Z.leb_spec 0 c), (Z.leb_spec (c + zlen a) (zlen buf)); cbn [andb]; try discriminate. intros E. inversion E.
  rewrite !zlen_app, zlen_firstn, zlen_skipn by lia. lia.
Qed.
Lemma serialize_all_ok m ps : Forall fits_CPdu ps -> exists bs, zlen bs = total_bits ps /\
  (forall buf cursor, 0 <= cursor <= zlen buf -> serialize_all m ps buf cursor = run_at (WOk bs tt) buf cursor) /\
  forall tail, zlen tail < 58 -> Split p_cpdu (bs ++ tail) (map img_cpdu ps) tail.
Proof.
  induction 1 as [|p ps Hp _ (bs2 & L2 & R2 & S2)].
  - exists []. split; [reflexivity|]. split.
    + intros buf c Hc. cbn [serialize_all run_at]. unfold splice. change (zlen (@nil bool)) with 0. rewrite Z.add_0_r.
      replace (0 <=? c) with true by lia. replace (c <=? zlen buf) with true by lia. cbn [andb app]. now rewrite firstn_skipn.
    + intros tail Ht. cbn [app map]. destruct (p_cpdu_short tail Ht) as [k Hk]. econstructor; exact Hk.
  - destruct (BRT_cpdu m p Hp) as (bs1 & W1 & L1 & P1). rewrite bits_declared in L1 by (apply fits_wfits_cbody; apply Hp).
    exists (bs1 ++ bs2). split; [rewrite zlen_app, L1, L2; reflexivity|]. split.
    + intros buf c Hc. cbn [serialize_all]. unfold cserialize. rewrite W1. cbn [run_at]. pose proof (zlen_nonneg bs1). pose proof (zlen_nonneg bs2).
      destruct (Z.le_gt_cases (c + zlen bs1 + zlen bs2) (zlen buf)) as [Hr|Hr].
      * destruct (splice_app buf c bs1 bs2 ltac:(lia) Hr) as (b1 & E1 & Lb & E2). rewrite E1. rewrite R2 by lia. unfold run_at. rewrite E2. destruct (splice buf c (bs1 ++ bs2)); [|reflexivity].
        rewrite zlen_app. do 2 f_equal. lia.
      * rewrite (splice_fail buf c (bs1 ++ bs2)) by (rewrite zlen_app; lia). destruct (splice buf c bs1) as [b1|] eqn:E1; [|reflexivity].
        pose proof (splice_len _ _ _ _ E1) as Lb. assert (c + zlen bs1 <= zlen buf).
        { unfold splice in E1. destruct (Z.leb_spec (c + zlen bs1) (zlen buf)); [assumption|]. rewrite andb_false_r in E1. discriminate. }
        rewrite R2 by lia. unfold run_at. rewrite splice_fail by lia. reflexivity.
    + intros tail Ht. rewrite <- app_assoc. cbn [map]. econstructor; [apply P1|now apply S2].
Qed.
Lemma to_bits_app l1 l2 : to_bits (l1 ++ l2) = to_bits l1 ++ to_bits l2.
Proof. apply flat_map_app. Qed.
Lemma ubits_nat_uval l : forall n, n = length l -> ubits_nat n (uval l) = l.
Proof.
  assert (G : forall l k, 0 <= k -> ubits_nat (length l) (k * 2 ^ zlen l + uval l) = l).
  { induction l0 as [|b l0 IH]; intros k Hk; [reflexivity|]. cbn [length ubits_nat]. rewrite uval_cons.
    pose proof (uval_bound l0) as Hu. replace (zlen (b :: l0)) with (zlen l0 + 1) by (unfold zlen; cbn [length]; lia).
    rewrite Z.pow_add_r, Z.pow_1_r by (pose proof (zlen_nonneg l0); lia). f_equal.
    - replace (Z.of_nat (length l0)) with (zlen l0) by reflexivity.
      rewrite Z.testbit_odd, Z.shiftr_div_pow2 by apply zlen_nonneg.
      replace (k * (2 ^ zlen l0 * 2) + (Z.b2z b * 2 ^ zlen l0 + uval l0)) with (uval l0 + (2 * k + Z.b2z b) * 2 ^ zlen l0) by lia.
      rewrite Z.div_add, Z.div_small by lia. rewrite Z.add_0_l, Z.add_comm, Z.odd_add_mul_2. now destruct b.
    - replace (k * (2 ^ zlen l0 * 2) + (Z.b2z b * 2 ^ zlen l0 + uval l0)) with ((2 * k + Z.b2z b) * 2 ^ zlen l0 + uval l0) by lia. apply IH. destruct b; cbn [Z.b2z]; lia. }
  intros n ->. specialize (G l 0 ltac:(lia)). rewrite Z.mul_0_l, Z.add_0_l in G. exact G.
Qed.
Lemma to_bits_octets_fuel fuel l : (length l <= fuel)%nat -> exists pad, zlen pad < 8 /\ Forall (eq false) pad /\ to_bits (to_octets_fuel fuel l) = l ++ pad.
Proof.
  revert l. induction fuel as [|fuel IH]; intros l H.
  - exists []. destruct l; [|cbn in H; lia]. repeat split; constructor.
  - destruct l as [|b l']; [exists []; repeat split; constructor|]. cbn [to_octets_fuel]. remember (b :: l') as l eqn:El.
    assert (Hl : (1 <= length l)%nat) by (subst; cbn; lia).
    destruct (IH (skipn 8 l)) as (pad & Hp & Hf & E); [rewrite skipn_length; lia|].
    change (to_bits (uval (firstn 8 l ++ repeat false (8 - length l)) :: to_octets_fuel fuel (skipn 8 l))) with
      (octet_bits (uval (firstn 8 l ++ repeat false (8 - length l))) ++ to_bits (to_octets_fuel fuel (skipn 8 l))). rewrite E.
    assert (O : octet_bits (uval (firstn 8 l ++ repeat false (8 - length l))) = firstn 8 l ++ repeat false (8 - length l)).
    { unfold octet_bits, ubits. apply ubits_nat_uval. rewrite app_length, firstn_length, repeat_length. change (Z.to_nat 8) with 8%nat. lia. }
    rewrite O. destruct (Nat.le_gt_cases 8 (length l)) as [G|G].
    + replace (8 - length l)%nat with 0%nat by lia. cbn [repeat]. rewrite app_nil_r. exists pad. split; [exact Hp|]. split; [exact Hf|]. rewrite app_assoc, firstn_skipn. reflexivity.
    + exists (repeat false (8 - length l) ++ pad). rewrite (firstn_all2 (n := 8) l) by lia.
      rewrite (skipn_all2 (n := 8) l) in E by lia. rewrite (skipn_all2 (n := 8) l) by lia. cbn [app]. 
      assert (pad = []). { destruct fuel; cbn in E; destruct pad; try discriminate; reflexivity. }
      subst pad. rewrite app_nil_r. split; [unfold zlen; rewrite repeat_length; lia|]. split; [|rewrite !app_nil_r; reflexivity].
      apply Forall_forall. intros y Hy. apply repeat_spec in Hy. now subst.
Qed.
Lemma to_bits_octets l : exists pad, zlen pad < 8 /\ to_bits (to_octets l) = l ++ pad.
Proof. destruct (to_bits_octets_fuel (length l) l (le_n _)) as (pad & H & _ & E). eauto. Qed.
Lemma packet_roundtrip_img : forall m ps buf, ps <> [] -> Forall fits_CPdu ps -> total_bits ps <= zlen buf ->
  exists buf', serialize_all m ps buf 0 = Some (buf', total_bits ps) /\
    cparse (to_octets (firstn (Z.to_nat (total_bits ps)) buf')) = CParsed (map img_cpdu ps) /\ Forall2 same_but_lossy (map img_cpdu ps) ps.
Proof.
  intros m ps buf Hne Hf Hl. destruct (serialize_all_ok m ps Hf) as (bs & L & R & S). pose proof (zlen_nonneg bs) as Hn. rewrite <- L in *.
  pose proof (zlen_nonneg buf). rewrite (R buf 0) by lia. unfold run_at. destruct (splice_ok buf 0 bs ltac:(lia) ltac:(lia)) as (b1 & -> & U & F). rewrite Z.add_0_l in *.
  exists b1. split; [reflexivity|]. unfold from in F. change (Z.to_nat 0) with 0%nat in F. cbn [skipn] in F. split.
  - replace (firstn (Z.to_nat (zlen bs)) b1) with bs.
    + unfold cparse. destruct (to_bits_octets bs) as (pad & Hp & ->). eapply cparse_split; [now destruct ps|apply S; lia].
    + rewrite F at 1. rewrite firstn_app. replace (length bs) with (Z.to_nat (zlen bs)) by (unfold zlen; lia). rewrite Nat.sub_diag, firstn_O, app_nil_r, firstn_all2; [reflexivity|unfold zlen; lia].
  - clear - Hf. induction Hf as [|p ps Hp _ IH]; cbn [map]; constructor; [|exact IH]. split; [reflexivity|]. apply blank_img, fits_wfits_cbody, Hp.
Qed.
(*@C28
   A whole datagram: serializing any non-empty list of PDUs that fit, one after the other from the start of a buffer with room, yields the total
   number of bits; parsing the octets that hold these bits (the last one filled up) yields the same PDUs in the same order, up to the lossy parts. *)
Lemma cdis_packet_roundtrip_pf : forall m ps buf, ps <> [] -> Forall fits_CPdu ps -> total_bits ps <= zlen buf ->
  exists buf' qs, serialize_all m ps buf 0 = Some (buf', total_bits ps) /\
    cparse (to_octets (firstn (Z.to_nat (total_bits ps)) buf')) = CParsed qs /\ Forall2 same_but_lossy qs ps.
Proof. intros m ps buf Hne Hf Hl. destruct (packet_roundtrip_img m ps buf Hne Hf Hl) as (b & K). exists b, (map img_cpdu ps). exact K. Qed.
(*@C28
   The reader never panics and always terminates with a list of PDUs or an error, whatever the octets; and it reports an error exactly when no PDU
   can be read at the start. *)
Lemma cdis_parse_total_pf : forall i, cparse i <> CParsePanic /\
  (cparse i = CParseError <-> exists k, p_cpdu (to_bits i) = PErr k) /\
  (forall l, cparse i = CParsed l <-> l <> [] /\ exists rest, Split p_cpdu (to_bits i) l rest).
Proof.
  intros i. assert (C : forall i r a, p_cpdu i = POk r a -> zlen r < zlen i) by (intros i0 r a E; apply p_cpdu_consumes in E; lia).
  unfold cparse, cparse_bits. pose proof (many1_spec p_cpdu C (to_bits i)) as H. destruct (many1 zlen p_cpdu (to_bits i)) as [rest l|k|] eqn:E.
  - destruct H as [Hne Hs]. split; [discriminate|]. split; [|].
    + split; [discriminate|]. intros [k Hk]. inversion Hs; subst; congruence.
    + intros l'. split.
      * intros Eq. inversion Eq; subst. eauto.
      * intros [Hne' [rest' Hs']]. destruct (Split_fun p_cpdu _ _ _ _ _ Hs Hs'). congruence.
  - split; [discriminate|]. split; [split; [eauto|reflexivity]|]. intros l. split; [discriminate|]. intros [Hne [rest Hs]]. inversion Hs; subst; congruence.
  - exfalso. assert (N : forall i, SplitPanic p_cpdu i -> False).
    { induction 1 as [j Hj|j r a _ _ IH]; [|exact IH]. pose proof (BSafe_cpdu j) as S. rewrite Hj in S. exact S. }
    exact (N _ H).
Qed.
(** Witnesses: a PDU that fits, is written, but is not read back with what follows it left over: neither when nothing follows the bits
    written nor when a second copy of them follows *)
Definition not_read_back (p : CPdu) : Prop :=
  wfits_CPdu p /\ body_matches (ch_type (cp_header p)) (cp_body p) /\
  forall m, exists buf' n, cserialize m p (repeat false 1000) 0 = Some (buf', n) /\
    let bits := firstn (Z.to_nat n) buf' in p_cpdu bits <> POk [] p /\ p_cpdu (bits ++ bits) <> POk bits p.
Definition ex_pdu (ty : Z) (b : CBody) : CPdu := cfinalize (ex_cheader ty) b None.
Ltac fits_header := unfold fits_CHeader; do 5 (split; [vm_compute; split; [discriminate|reflexivity]|]); refine (parse_status_ok _ _ _ _); vm_compute; split; [discriminate|reflexivity|discriminate|reflexivity].
Definition ex_transmitter : CTransmitter := MkCTransmitter (0, 1) true ex_id 4 None 2 1 None None None None None None None None None [] None [].
(*@C28
   The full claim fails for a Transmitter without variable transmitter parameters: the writer leaves their number out, the reader reads it anyway.
   Alone in
   a datagram this PDU is an error, and in front of another one it swallows that one's first bits. *)
Lemma cdis_transmitter_refuted_pf : not_read_back (ex_pdu 25 (CBTransmitter ex_transmitter)).
Proof.
  split; [split|split].
  - fits_header.
  - cbn [ex_pdu cfinalize cp_body wfits_cbody]. unfold fits_CTransmitter, ex_transmitter, fits_CEntityId, ex_id, ub; cbn. 
    repeat split; try lia; try (intros; discriminate); try constructor.
  - reflexivity.
  - intros []; (eexists; eexists; split; [vm_compute; reflexivity|split; vm_compute; discriminate]).
Qed.
Definition ex_system : CEmitterSystem := MkCEmitterSystem None None 9 None [].
Definition ex_emission : CEmission := MkCEmission true ex_id ex_id 0 [] [] [] [ex_system].
(*@C28
   It fails for every kind of Emission PDU with an emitter system: the reader expects a system number that the writer never writes. *)
Lemma cdis_emission_refuted_pf : not_read_back (ex_pdu 23 (CBEmission ex_emission)).
Proof.
  split; [split|split].
  - fits_header.
  - cbn [ex_pdu cfinalize cp_body wfits_cbody]. unfold wfits_CEmission, ex_emission, fits_CEmitterSystem, ex_system, fits_CEntityId, ex_id, oub, ub, zlen; cbn.
    repeat split; try lia; repeat constructor; cbn; try lia; try (intros; discriminate).
  - reflexivity.
  - intros []; (eexists; eexists; split; [vm_compute; reflexivity|split; vm_compute; discriminate]).
Qed.
Definition ex_es (loc : option CWorldCoordinates) : CEntityState :=
  MkCEntityState 0 true ex_id (Some 1) (Some (MkCEntityType 1 2 225 1 2 3 4)) None (Some (MkCLinearVelocity 5 (-300) 0)) loc None (Some 77) 2 None None None (Some (MkCMarking false [65; 66])) None [].
Lemma ex_es_fits loc : (forall a, loc = Some a -> fits_CWorldCoordinates a) -> fits_CEntityState (ex_es loc).
Proof.
  intros H. unfold fits_CEntityState, ex_es, fits_CEntityId, ex_id; cbn. unfold ub; cbn.
  repeat lazymatch goal with |- _ /\ _ => split end; try lia; try exact H; try (intros; discriminate); try (intros ? E; injection E as <-).
  all: unfold fits_CEntityType, fits_CLinearVelocity, fits_CMarking, codable, ub, sb, zlen; cbn; repeat lazymatch goal with |- _ /\ _ => split end; try lia.
  all: repeat apply Forall_cons; try apply Forall_nil; (split; [vm_compute; tauto|discriminate]).
Qed.
(*@C28
   It fails for every PDU with a position: latitude and longitude are written as they are and read back divided by about 17 and 9 (the scale
   factors are computed with exclusive or instead of a power). Here the latitude 1309918033 comes back as something else. *)
Lemma cdis_location_refuted_pf : not_read_back (ex_pdu 1 (CBEntityState (ex_es (Some (MkCWorldCoordinates 1309918033 0 100))))).
Proof.
  split; [split|split].
  - fits_header.
  - apply ex_es_fits. intros a E. inversion E; subst. unfold fits_CWorldCoordinates, u32, sb; cbn [cwc_lat cwc_lon cwc_alt]. vm_compute. repeat split; discriminate.
  - reflexivity.
  - intros []; (eexists; eexists; split; [vm_compute; reflexivity|split; vm_compute; discriminate]).
Qed.
(*@ex*)
Example cdis_pdu_example : fits_CPdu (ex_pdu 1 (CBEntityState (ex_es None))) /\ no_lossy_parts (CBEntityState (ex_es None)) /\
  cpdu_length (ex_pdu 1 (CBEntityState (ex_es None))) = 235.
Proof.
  split; [|split; reflexivity]. split; [fits_header|]. split; [reflexivity|]. apply ex_es_fits. discriminate.
Qed.

(** ** C29 *)
Lemma ubits_cons_flags (n : nat) v : ubits (Z.of_nat (S n)) v = Z.testbit v (Z.of_nat n) :: ubits (Z.of_nat n) v.
Proof. unfold ubits. rewrite !Nat2Z.id. reflexivity. Qed.
Lemma first_word ty n v (k : unit -> BW) bs u : (bput ty n v;; k tt)%write = WOk bs u -> 0 <= n -> firstn (Z.to_nat n) bs = ubits n v.
Proof.
  unfold bput, wbind. destruct ((1 <=? n) && (n <=? ty)); [|discriminate]. destruct (k tt) as [b2 a|]; [|discriminate]. intros E Hn. inversion E; subst.
  rewrite firstn_app. assert (L : length (ubits n v) = Z.to_nat n) by (pose proof (ubits_zlen n v Hn); unfold zlen in *; lia).
  rewrite L, Nat.sub_diag, firstn_O, app_nil_r. apply firstn_all2. lia.
Qed.
Lemma present_is {A} (o : option A) : present o = is_some o. Proof. now destruct o. Qed.
Lemma some_items_is {A} (l : list A) : some_items l = nonempty l. Proof. now destruct l. Qed.
Ltac flags_word := cbv [ubits Z.to_nat Pos.to_nat Pos.iter_op Nat.add ubits_nat]; cbn [Z.of_nat Pos.of_succ_nat Pos.succ]; rewrite ?Z.lor_spec, ?fbit_bit;
  repeat match goal with |- context [Z.testbit ?a ?b] => let r := eval vm_compute in (Z.testbit a b) in match r with true => idtac | false => idtac end; progress change (Z.testbit a b) with r end;
  rewrite ?andb_true_r, ?andb_false_r, ?orb_false_r, ?orb_false_l; reflexivity.
(*@C29
   For every body of a type with a fields-present word (14 of the 22), any field values: the first bits written are exactly the presence flags of
   [presence_flags], in the order of the standard's tables; a flag of a group of fields is set iff all of the group are present, a list's iff it is
   not empty. *)
Lemma cdis_presence_flags_pf : forall m b bs u, w_cbody m b = WOk bs u -> firstn (length (presence_flags b)) bs = presence_flags b.
Proof.
  intros m b bs u E. destruct b; try reflexivity; cbn [w_cbody] in E; cbn [presence_flags length]; unfold datum_flags; cbn [length]; rewrite ?present_is, ?some_items_is.
  - unfold w_ces in E. change 13%nat with (Z.to_nat 13). rewrite (first_word _ _ _ (fun _ => _) _ _ E) by lia. unfold fields_ces. flags_word.
  - unfold w_cfire in E. change 4%nat with (Z.to_nat 4). rewrite (first_word _ _ _ (fun _ => _) _ _ E) by lia. unfold fields_cfire. flags_word.
  - unfold w_cdetonation in E. change 4%nat with (Z.to_nat 4). rewrite (first_word _ _ _ (fun _ => _) _ _ E) by lia. unfold fields_cdetonation. flags_word.
  - unfold w_cactreq in E. change 2%nat with (Z.to_nat 2). rewrite (first_word _ _ _ (fun _ => _) _ _ E) by lia. unfold fields_cactreq, datum_fields, two_fields. flags_word.
  - unfold w_cactres in E. change 2%nat with (Z.to_nat 2). rewrite (first_word _ _ _ (fun _ => _) _ _ E) by lia. unfold fields_cactres, datum_fields, two_fields. flags_word.
  - unfold w_cquery in E. change 2%nat with (Z.to_nat 2). rewrite (first_word _ _ _ (fun _ => _) _ _ E) by lia. unfold fields_cquery. flags_word.
  - unfold w_csetdata in E. change 2%nat with (Z.to_nat 2). rewrite (first_word _ _ _ (fun _ => _) _ _ E) by lia. unfold fields_csetdata, datum_fields, two_fields. flags_word.
  - unfold w_cdata in E. change 2%nat with (Z.to_nat 2). rewrite (first_word _ _ _ (fun _ => _) _ _ E) by lia. unfold fields_cdata, datum_fields, two_fields. flags_word.
  - unfold w_cevent in E. change 2%nat with (Z.to_nat 2). rewrite (first_word _ _ _ (fun _ => _) _ _ E) by lia. unfold fields_cevent, datum_fields, two_fields. flags_word.
  - unfold w_ccomment in E. change 2%nat with (Z.to_nat 2). rewrite (first_word _ _ _ (fun _ => _) _ _ E) by lia. unfold fields_ccomment, datum_fields, two_fields. flags_word.
  - unfold w_cdesignator in E. change 4%nat with (Z.to_nat 4). rewrite (first_word _ _ _ (fun _ => _) _ _ E) by lia. unfold fields_cdesignator. flags_word.
  - unfold w_ctransmitter in E. change 8%nat with (Z.to_nat 8). rewrite (first_word _ _ _ (fun _ => _) _ _ E) by lia. unfold fields_ctransmitter. flags_word.
  - unfold w_csignal in E. change 2%nat with (Z.to_nat 2). rewrite (first_word _ _ _ (fun _ => _) _ _ E) by lia. unfold fields_csignal. flags_word.
  - unfold w_ciff in E. change 12%nat with (Z.to_nat 12). rewrite (first_word _ _ _ (fun _ => _) _ _ E) by lia. unfold fields_ciff, fields_cfo. flags_word.
Qed.
Definition ex_fire (warhead : option Z) : CFire :=
  MkCFire 0 ex_id ex_id ex_id ex_id None (MkCWorldCoordinates 0 0 0) (MkCEntityType 2 2 225 1 2 3 4) warhead None None None (MkCLinearVelocity 5 6 7) None.
(*@C29
   The claim fails for the fields that share a flag: a warhead without a fuze is written although its flag is clear, so the reader takes its 16
   bits for the following fields. *)
Lemma cdis_lone_group_member_refuted_pf : forall m, exists bs bs0 u,
  w_cbody m (CBFire (ex_fire (Some 7))) = WOk bs u /\ w_cbody m (CBFire (ex_fire None)) = WOk bs0 u /\
  firstn 4 bs = [false; false; false; false] /\ zlen bs = zlen bs0 + 16 /\
  forall rest, p_cbody 2 (bs ++ repeat false 100) <> POk rest (CBFire (ex_fire (Some 7))).
Proof. intros []; (do 3 eexists; split; [vm_compute; reflexivity|]; split; [vm_compute; reflexivity|]; split; [reflexivity|]; split; [reflexivity|]; intros rest; vm_compute; discriminate). Qed.
(*@ex*)
Example cdis_presence_example : presence_flags (CBEntityState (ex_es None)) =
  [true; false; true; false; true; false; false; true; false; false; false; true; false].
Proof. reflexivity. Qed.

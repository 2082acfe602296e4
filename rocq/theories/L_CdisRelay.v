(** * Passing C-DIS PDUs on (C60) *)
From Coq Require Import ZArith List Lia Bool SpecFloat Reals Lra Psatz.
From Flocq Require Import Core BinarySingleNaN.
From Verif Require Import Base SpecCdis CdisBase DisCommon DisLists DisEntity DisRadio DisIff CdisRecords CdisBodies1 CdisBodies2 CdisIff CdisPdu SpecCdisPdu SpecCdisRelay
  FloatReal FloatBits Utf8 L_CodecNum CrossFits DisPacket DisSimman L_CdisPdu.
Import ListNotations. Open Scope Z_scope.

Lemma BSafe_when_s {A} fp mask (p : bitparser A) (P : A -> Prop) : BSafe p P ->
  BSafe (p_when fp mask p) (fun o => CdisBase.is_some o = field_present fp mask /\ forall a, o = Some a -> P a).
Proof.
  intros Hp. unfold p_when. destruct (field_present fp mask); [|apply BSafe_ret; split; [reflexivity|discriminate]].
  eapply BSafe_bind; [exact Hp|]. intros a Ha. apply BSafe_ret. split; [reflexivity|]. intros b E. congruence.
Qed.
Lemma BSafe_if_s {A} b (p : bitparser A) (P : A -> Prop) : BSafe p P -> BSafe (p_if b p) (fun o => CdisBase.is_some o = b /\ forall a, o = Some a -> P a).
Proof.
  intros Hp. unfold p_if. destruct b; [|apply BSafe_ret; split; [reflexivity|discriminate]].
  eapply BSafe_bind; [exact Hp|]. intros a Ha. apply BSafe_ret. split; [reflexivity|]. intros b E. congruence.
Qed.
Lemma BSafe_units2_s : BSafe p_units2 (fun u => ub 1 (fst u) /\ ub 1 (snd u)).
Proof.
  unfold p_units2. eapply BSafe_bind; [apply BSafe_take; lia|]. intros u Hu. apply BSafe_ret. unfold ub in *. change (2 ^ 2) with 4 in Hu. change (2 ^ 1) with 2.
  assert (u = 0 \/ u = 1 \/ u = 2 \/ u = 3) as [-> | [-> | [-> | ->]]] by lia; cbn; lia.
Qed.
Lemma BSafe_two_s {A B} (pa : bitparser A) (pb : bitparser B) fp P Q : BSafe pa P -> BSafe pb Q ->
  BSafe (p_two pa pb fp) (fun l => (Forall P (fst l) /\ zlen (fst l) < 256) /\ (Forall Q (snd l) /\ zlen (snd l) < 256)).
Proof.
  assert (N : forall na : option Z, (forall a, na = Some a -> ub 8 a) -> Z.of_nat (Z.to_nat (odflt na)) < 256).
  { intros [a|] H; cbn [odflt]; [specialize (H a eq_refl); unfold ub in H; change (2 ^ 8) with 256 in H; lia|lia]. }
  intros Ha Hb. unfold p_two. eapply BSafe_bind; [eapply BSafe_when, BSafe_uvint8|]. intros na Hna. eapply BSafe_bind; [eapply BSafe_when, BSafe_uvint8|]. intros nb Hnb. cbv beta in *.
  eapply BSafe_bind; [eapply BSafe_count; exact Ha|]. intros x [Hx Lx]. eapply BSafe_bind; [eapply BSafe_count; exact Hb|]. intros y [Hy Ly]. apply BSafe_ret. cbn [fst snd].
  rewrite Lx, Ly. auto.
Qed.
Lemma BSafe_cdatums_s fp : BSafe (p_cdatums fp) (fun d => datums_pass d -> fits_cDatumSpec d).
Proof.
  unfold p_cdatums. eapply BSafe_bind; [eapply BSafe_two_s; [apply BSafe_cfd|apply BSafe_cvd]|]. intros [f v] ((H1 & H2) & (H3 & H4)). apply BSafe_ret. cbn [fst snd] in *.
  unfold datums_pass, fits_cDatumSpec. cbn [ds_fixed ds_variable]. intros D. split; [exact H2|]. split; [exact H4|]. split; [exact H1|].
  rewrite Forall_forall in *. intros x Hx. destruct (H3 x Hx) as (V1 & V2 & _). split; [exact V1|]. split; [exact V2|]. exact (D x Hx).
Qed.
(** a latitude that has been read *)
Lemma read_latitude z : sb 31 z -> u32 (lat_of_int z) /\ - 2 ^ 30 < f32_as_i32 (lat_of_int z) < 2 ^ 30.
Proof.
  intros H. unfold sb in H. change (2 ^ (31 - 1)) with 1073741824 in H. change (2 ^ 30) with 1073741824.
  assert (A : (Rabs (IZR z) <= 1073741824)%R) by (apply Rabs_le; split; [rewrite <- opp_IZR|]; apply IZR_le; lia).
  destruct (int_near z) as [I N]; [unfold huge; lra|]. destruct lat_scale_ok as (S & _ & V).
  assert (B : (Rabs (val (sf_of_int z)) <= 1073750000)%R).
  { replace (val (sf_of_int z)) with ((val (sf_of_int z) - IZR z) + IZR z)%R by ring. eapply Rle_trans; [apply Rabs_triang|]. unfold ulp24, tiny in N. lra. }
  assert (D : (Rabs (val (sf_of_int z) / val lat_scale) <= 134218750)%R).
  { unfold Rdiv. rewrite Rabs_mult, Rabs_inv, (Rabs_pos_eq (val lat_scale)) by lra. assert ((/ val lat_scale <= / 8)%R) by (apply Rinv_le_contravar; lra).
    assert ((0 < / val lat_scale)%R) by (apply Rinv_0_lt_compat; lra). pose proof (Rabs_pos (val (sf_of_int z))).
    apply Rle_trans with (1073750000 * / 8)%R; [apply Rmult_le_compat; lra|lra]. }
  destruct (div_near (sf_of_int z) lat_scale I S) as [Q M]; [lra|unfold huge; lra|].
  assert (W : (Rabs (val (sfdiv (sf_of_int z) lat_scale)) <= 134300000)%R).
  { set (q := val (sfdiv (sf_of_int z) lat_scale)) in *. set (r := (val (sf_of_int z) / val lat_scale)%R) in *.
    replace q with ((q - r) + r)%R by ring. eapply Rle_trans; [apply Rabs_triang|]. unfold ulp24, tiny in M. lra. }
  unfold lat_of_int, f32_as_i32. split; [apply bits_u32, Q|]. destruct (bits_round_trip _ Q) as [-> _].
  destruct (cast_back _ Q) as (_ & _ & C); [lra|]. cbv zeta in C.
  assert (E : (Rabs (IZR (sf_cast (- 2 ^ 31) (2 ^ 31 - 1) (sfdiv (sf_of_int z) lat_scale))) < 1073741824)%R) by lra.
  rewrite <- abs_IZR in E. apply lt_IZR in E. lia.
Qed.
Lemma read_longitude z : sb 32 z -> u32 (lon_of_int z).
Proof.
  intros H. unfold sb in H. change (2 ^ (32 - 1)) with 2147483648 in H.
  assert (A : (Rabs (IZR z) <= 2147483648)%R) by (apply Rabs_le; split; [rewrite <- opp_IZR|]; apply IZR_le; lia).
  destruct (int_near z) as [I N]; [unfold huge; lra|]. destruct lon_scale_ok as (S & _ & V).
  assert (B : (Rabs (val (sf_of_int z)) <= 2147500000)%R).
  { replace (val (sf_of_int z)) with ((val (sf_of_int z) - IZR z) + IZR z)%R by ring. eapply Rle_trans; [apply Rabs_triang|]. unfold ulp24, tiny in N. lra. }
  assert (D : (Rabs (val (sf_of_int z) / val lon_scale) <= 268437500)%R).
  { unfold Rdiv. rewrite Rabs_mult, Rabs_inv, (Rabs_pos_eq (val lon_scale)) by lra. assert ((/ val lon_scale <= / 8)%R) by (apply Rinv_le_contravar; lra).
    assert ((0 < / val lon_scale)%R) by (apply Rinv_0_lt_compat; lra). pose proof (Rabs_pos (val (sf_of_int z))).
    apply Rle_trans with (2147500000 * / 8)%R; [apply Rmult_le_compat; lra|lra]. }
  destruct (div_near (sf_of_int z) lon_scale I S) as [Q M]; [lra|unfold huge; lra|]. apply bits_u32, Q.
Qed.
Lemma BSafe_cwc_s : BSafe p_cwc (fun x => altitude_passes x -> fits_CWorldCoordinates x).
Proof.
  unfold p_cwc. eapply BSafe_bind; [apply BSafe_take_s; lia|]. intros la Hla. eapply BSafe_bind; [apply BSafe_take_s; lia|]. intros lo Hlo.
  eapply BSafe_bind; [apply BSafe_svint24|]. intros al Hal. apply BSafe_ret. cbv beta in *. unfold altitude_passes, fits_CWorldCoordinates. cbn [cwc_lat cwc_lon cwc_alt]. intros P.
  destruct (read_latitude la Hla) as [A B]. split; [exact A|]. split; [apply read_longitude, Hlo|]. split; [|exact B]. unfold sb. change (24 - 1) with 23. lia.
Qed.
Lemma dec5_in c : ub 5 c -> In (char_from_code false c) dec5_table.
Proof.
  unfold ub. change (2 ^ 5) with 32. intros H. unfold char_from_code. apply nth_In. change (length dec5_table) with 32%nat. lia.
Qed.
Lemma six_in c : ub 6 c -> In (char_from_code true c) six_table.
Proof.
  unfold ub. change (2 ^ 6) with 64. intros H. unfold char_from_code. apply nth_In. change (length six_table) with 64%nat. lia.
Qed.
Lemma BSafe_cmarking_s : BSafe p_cmarking (fun x => marking_passes x -> fits_CMarking x).
Proof.
  unfold p_cmarking. eapply BSafe_bind; [apply BSafe_take; lia|]. intros n Hn. eapply BSafe_bind; [apply BSafe_take; lia|]. intros e He. cbv beta. set (six := negb (e =? 0)).
  eapply BSafe_bind; [eapply BSafe_count; apply BSafe_take; unfold char_bits; destruct six; lia|]. intros cs [Hc Hl]. apply BSafe_ret.
  unfold marking_passes, fits_CMarking. cbn [cm_chars cm_six]. intros Y. split.
  - unfold zlen in *. rewrite map_length. unfold ub in Hn. change (2 ^ 4) with 16 in Hn. lia.
  - apply Forall_forall. intros c Hin. apply in_map_iff in Hin as (k & <- & Hk). rewrite Forall_forall in Hc. specialize (Hc k Hk). unfold codable. destruct six.
    + split; [apply six_in, Hc|discriminate].
    + split; [apply dec5_in, Hc|]. intros _ E. apply (Y eq_refl). rewrite <- E. now apply in_map.
Qed.
Create HintDb brd discriminated.
Global Hint Resolve BSafe_units2_s BSafe_cdatums_s BSafe_cwc_s BSafe_cmarking_s : brd.
Global Hint Extern 2 (BSafe (p_two _ _ _) _) => eapply BSafe_two_s; apply BSafe_take; lia : brd.
Ltac rd_atom := first
  [ solve [eauto 3 with brd]
  | match goal with
    | |- BSafe (p_when _ _ _) _ => eapply BSafe_when_s; rd_atom
    | |- BSafe (p_if _ _) _ => eapply BSafe_if_s; rd_atom
    | |- BSafe (count _ _) _ => eapply BSafe_count; rd_atom
    end
  | bsafe_atom ].
Ltac rd := repeat (eapply BSafe_bind; [rd_atom|let H := fresh "R" in intros ? H; cbv beta in H]); apply BSafe_ret.
(** the number of elements of a list whose length was an eight-bit number *)
Lemma count_256 {A} (l : list A) (n : option Z) : zlen l = Z.of_nat (Z.to_nat (odflt n)) -> (forall a, n = Some a -> ub 8 a) -> zlen l < 256.
Proof. intros -> H. destruct n as [a|]; cbn [odflt]; [specialize (H a eq_refl); unfold ub in H; change (2 ^ 8) with 256 in H; lia|lia]. Qed.
Ltac rfin := repeat match goal with H : _ /\ _ |- _ => destruct H | |- _ /\ _ => split end; try assumption; try solve [auto]; try congruence;
  try (eapply count_256; eassumption).
Lemma read_ccreate : BSafe p_ccreate fits_CCreateEntity.
Proof. unfold p_ccreate. rd. unfold fits_CCreateEntity. cbn. rfin. Qed.
Lemma read_cremove : BSafe p_cremove fits_CRemoveEntity.
Proof. unfold p_cremove. rd. unfold fits_CRemoveEntity. cbn. rfin. Qed.
Lemma read_cstart : BSafe p_cstart fits_CStartResume.
Proof. unfold p_cstart. rd. unfold fits_CStartResume. cbn -[fst snd]. rfin. Qed.
Lemma read_cstop : BSafe p_cstop fits_CStopFreeze.
Proof. unfold p_cstop. rd. unfold fits_CStopFreeze. cbn -[fst snd]. rfin. Qed.
Lemma read_cack : BSafe p_cack fits_CAcknowledge.
Proof. unfold p_cack. rd. unfold fits_CAcknowledge. cbn. rfin. Qed.
Lemma read_cactreq : BSafe p_cactreq (fun x => datums_pass (CActionRequest_datums x) -> fits_CActionRequest x).
Proof. unfold p_cactreq. rd. unfold fits_CActionRequest. cbn [CActionRequest_orig CActionRequest_recv CActionRequest_request CActionRequest_action CActionRequest_datums]. intros D. rfin. Qed.
Lemma read_cactres : BSafe p_cactres (fun x => datums_pass (CActionResponse_datums x) -> fits_CActionResponse x).
Proof. unfold p_cactres. rd. unfold fits_CActionResponse. cbn [CActionResponse_orig CActionResponse_recv CActionResponse_request CActionResponse_status CActionResponse_datums]. intros D. rfin. Qed.
Lemma read_csetdata : BSafe p_csetdata (fun x => datums_pass (CSetData_datums x) -> fits_CSetData x).
Proof. unfold p_csetdata. rd. unfold fits_CSetData. cbn [CSetData_orig CSetData_recv CSetData_request CSetData_datums]. intros D. rfin. Qed.
Lemma read_cdata : BSafe p_cdata (fun x => datums_pass (CData_datums x) -> fits_CData x).
Proof. unfold p_cdata. rd. unfold fits_CData. cbn [CData_orig CData_recv CData_request CData_datums]. intros D. rfin. Qed.
Lemma read_cevent : BSafe p_cevent (fun x => datums_pass (CEventReport_datums x) -> fits_CEventReport x).
Proof. unfold p_cevent. rd. unfold fits_CEventReport. cbn [CEventReport_orig CEventReport_recv CEventReport_event CEventReport_datums]. intros D. rfin. Qed.
Lemma read_ccomment : BSafe p_ccomment (fun x => datums_pass (CComment_datums x) -> fits_CComment x).
Proof. unfold p_ccomment. rd. unfold fits_CComment. cbn [CComment_orig CComment_recv CComment_datums]. intros D. rfin. Qed.
Lemma read_cquery : BSafe p_cquery fits_CDataQuery.
Proof. unfold p_cquery. rd. unfold fits_CDataQuery. cbn [CDataQuery_orig CDataQuery_recv CDataQuery_request CDataQuery_interval CDataQuery_fixed CDataQuery_variable]. rfin. Qed.
Lemma read_ccollision : BSafe p_ccollision fits_CCollision.
Proof. unfold p_ccollision. rd. unfold fits_CCollision. cbn [CCollision_units CCollision_issuing CCollision_colliding CCollision_event CCollision_ctype CCollision_velocity CCollision_mass CCollision_location]. rfin. Qed.
Lemma read_cfire : BSafe p_cfire (fun x => altitude_passes (CFire_location x) -> fits_CFire x).
Proof.
  unfold p_cfire. rd. unfold fits_CFire.
  cbn [CFire_units CFire_firing CFire_target CFire_munition CFire_event CFire_mission CFire_location CFire_etype CFire_warhead CFire_fuze CFire_quantity CFire_rate CFire_velocity CFire_range].
  intros P. rfin.
Qed.
Lemma read_cdetonation : BSafe p_cdetonation (fun x => altitude_passes (CDetonation_location x) /\ parameters_pass (CDetonation_vps x) -> fits_CDetonation x).
Proof.
  unfold p_cdetonation. rd. unfold fits_CDetonation.
  cbn [CDetonation_units CDetonation_source CDetonation_target CDetonation_exploding CDetonation_event CDetonation_velocity CDetonation_location CDetonation_etype CDetonation_warhead CDetonation_fuze CDetonation_quantity CDetonation_rate CDetonation_material CDetonation_force CDetonation_location_entity CDetonation_result CDetonation_vps].
  intros [P V]. rfin.
Qed.
Lemma read_csignal : BSafe p_csignal fits_CSignal.
Proof.
  unfold p_csignal. rd. unfold fits_CSignal. cbn [CSignal_radio CSignal_number CSignal_encoding CSignal_tdl CSignal_rate CSignal_samples CSignal_data]. rfin.
  match goal with H : zlen ?l = Z.of_nat (Z.to_nat (?n / 8)), U : ub 14 ?n |- _ => rewrite H; unfold ub in U; change (2 ^ 14) with 16384 in U;
    assert (n / 8 < 2048) by (apply Z.div_lt_upper_bound; lia); assert (0 <= n / 8) by (apply Z.div_pos; lia); lia end.
Qed.
Lemma read_creceiver : BSafe p_creceiver fits_CReceiver.
Proof. unfold p_creceiver. rd. unfold fits_CReceiver. cbn [CReceiver_radio CReceiver_number CReceiver_state CReceiver_power CReceiver_tradio CReceiver_tnumber]. rfin. Qed.
Lemma read_ces : BSafe p_ces (fun x => opt_passes altitude_passes (CEntityState_location x) /\ opt_passes marking_passes (CEntityState_marking x) /\ parameters_pass (CEntityState_vps x) -> fits_CEntityState x).
Proof.
  unfold p_ces. rd. unfold fits_CEntityState, opt_passes, parameters_pass.
  cbn [CEntityState_units CEntityState_full CEntityState_id CEntityState_force CEntityState_etype CEntityState_alt CEntityState_velocity CEntityState_location CEntityState_orientation CEntityState_appearance CEntityState_dr_algorithm CEntityState_dr_other CEntityState_dr_acceleration CEntityState_dr_angular CEntityState_marking CEntityState_capabilities CEntityState_vps].
  intros (P1 & P2 & P3). rfin.
Qed.
Lemma read_cdesignator : BSafe p_cdesignator (fun x => opt_passes altitude_passes (CDesignator_spot_location x) -> fits_CDesignator x).
Proof.
  unfold p_cdesignator. rd. unfold fits_CDesignator, opt_passes.
  cbn [CDesignator_units CDesignator_full CDesignator_id CDesignator_code_name CDesignator_designated CDesignator_code CDesignator_power CDesignator_wavelength CDesignator_spot_entity CDesignator_spot_location CDesignator_dr_algorithm CDesignator_dr_acceleration].
  intros P. rfin.
Qed.
Lemma count_31 {A} (l : list A) n : zlen l = Z.of_nat (Z.to_nat n) -> ub 5 n -> zlen l <= 31.
Proof. intros -> H. unfold ub in H. change (2 ^ 5) with 32 in H. lia. Qed.
Lemma read_cemission : BSafe p_cemission (fun x => CEmission_systems x = [] -> fits_CEmission x).
Proof.
  unfold p_cemission. rd. unfold fits_CEmission, wfits_CEmission.
  cbn [CEmission_full CEmission_id CEmission_event CEmission_sui CEmission_params CEmission_beams CEmission_sites CEmission_systems].
  intros ->. rfin; try (eapply count_31; eassumption); try constructor; try reflexivity.
Qed.
Lemma BSafe_cvtp_s : BSafe p_cvtp fits_cVTP.
Proof.
  unfold p_cvtp. rd. unfold fits_cVTP. cbn [vtp_type vtp_fields]. rfin.
  match goal with H : zlen ?l = Z.of_nat (Z.to_nat (Z.max 0 (?n - 6))), U : ub 16 ?n |- _ => rewrite H; unfold ub in U; change (2 ^ 16) with 65536 in U; lia end.
Qed.
Lemma BSafe_octets8_s fp mask : BSafe (p_octets8 fp mask) (fun l => Forall (ub 8) l /\ zlen l < 256).
Proof.
  unfold p_octets8. eapply BSafe_bind; [eapply BSafe_when, BSafe_take; lia|]. intros n Hn. cbv beta in Hn. destruct (field_present fp mask).
  - eapply BSafe_weaken; [eapply BSafe_count, BSafe_take; lia|]. intros l [A B]. split; [exact A|]. eapply count_256; eassumption.
  - apply BSafe_ret. split; [constructor|reflexivity].
Qed.
Lemma BSafe_vtps (b : bool) n : ub 8 n -> BSafe (if b then count p_cvtp n else pret []) (fun l => Forall fits_cVTP l /\ zlen l < 256).
Proof.
  intros H. destruct b; [|apply BSafe_ret; split; [constructor|reflexivity]]. eapply BSafe_weaken; [eapply BSafe_count, BSafe_cvtp_s|]. intros l [A B]. split; [exact A|].
  rewrite B. unfold ub in H. change (2 ^ 8) with 256 in H. lia.
Qed.
Global Hint Resolve BSafe_octets8_s : brd.
Global Hint Extern 2 (BSafe (if _ then count p_cvtp _ else _) _) => apply BSafe_vtps; assumption : brd.
Lemma read_ctransmitter : BSafe p_ctransmitter (fun x => opt_passes altitude_passes (CTransmitter_antenna x) /\ CTransmitter_vtps x <> [] -> fits_CTransmitter x /\ tx_ok x).
Proof.
  unfold p_ctransmitter. rd. unfold fits_CTransmitter, tx_ok, opt_passes.
  cbn [CTransmitter_units CTransmitter_full CTransmitter_radio CTransmitter_number CTransmitter_rtype CTransmitter_state CTransmitter_source CTransmitter_antenna CTransmitter_relative CTransmitter_ptype CTransmitter_frequency CTransmitter_bandwidth CTransmitter_power CTransmitter_modulation CTransmitter_crypto CTransmitter_key CTransmitter_modparams CTransmitter_pattern CTransmitter_vtps].
  intros (P & V). rfin. match goal with |- nonempty ?l = true => destruct l; [contradiction|reflexivity] end.
Qed.
(** ** IFF *)
Lemma bits_idem mask force v : bits_ok mask force (bits_of mask force v).
Proof.
  unfold bits_ok, bits_of. apply Z.bits_inj'. intros k Hk. rewrite !Z.lor_spec, !Z.land_spec, !Z.lor_spec, !Z.land_spec. now destruct (Z.testbit v k), (Z.testbit mask k), (Z.testbit force k).
Qed.
Lemma land_ub n v mask : ub n v -> 0 <= n -> 0 <= mask -> ub n (Z.land v mask).
Proof.
  unfold ub. intros [H1 H2] Hn Hm. split; [apply Z.land_nonneg; lia|].
  assert (Z.land v mask <= v); [|lia]. rewrite <- (Z.add_0_r (Z.land v mask)). pose proof (Z.land_nonneg v (Z.lnot mask)) as L.
  assert (E : v = Z.land v mask + Z.land v (Z.lnot mask)).
  { rewrite Z.add_nocarry_lxor.
    - apply Z.bits_inj'. intros k Hk. rewrite Z.lxor_spec, !Z.land_spec, Z.lnot_spec by exact Hk. now destruct (Z.testbit v k), (Z.testbit mask k).
    - apply Z.bits_inj'. intros k Hk. rewrite !Z.land_spec, Z.lnot_spec, Z.bits_0 by exact Hk. now destruct (Z.testbit v k), (Z.testbit mask k). }
  rewrite E at 2. apply Z.add_le_mono_l. apply L. now left.
Qed.
Lemma BSafe_word_s n mask force : 0 <= n -> 0 <= mask -> ub n force -> BSafe (p_word n mask force) (fun v => ub n v /\ bits_ok mask force v).
Proof.
  intros Hn Hm Hf. unfold p_word. eapply BSafe_bind; [now apply BSafe_take|]. intros v Hv. apply BSafe_ret. split; [|apply bits_idem].
  unfold bits_of. apply ub_lor; [exact Hn|now apply land_ub|exact Hf].
Qed.
Global Hint Extern 2 (BSafe (p_word _ _ _) _) => apply BSafe_word_s; [lia|vm_compute; discriminate|unfold ub; split; [vm_compute; discriminate|reflexivity]] : brd.
Lemma BSafe_csysid_s : BSafe p_csysid fits_cSystemId.
Proof. unfold p_csysid. rd. unfold fits_cSystemId. cbn [si_type si_name si_mode si_change]. rfin. Qed.
Lemma BSafe_cfo_s fp : BSafe (p_cfo fp) (fun d => fits_CFundOpData d /\ bits_ok m_layers 0 (cfo_layers d)).
Proof. unfold p_cfo. rd. unfold fits_CFundOpData, oub. cbn [cfo_status cfo_field1 cfo_layers cfo_field2 cfo_p1 cfo_p2 cfo_p3 cfo_p4 cfo_p5 cfo_p6]. rfin. Qed.
Lemma BSafe_cip_s : BSafe p_cip fits_CIffParameter.
Proof. unfold p_cip. rd. unfold fits_CIffParameter. cbn [cip_erp cip_frequency cip_pgrf cip_pulse cip_burst cip_modes cip_s1 cip_s2 cip_s3]. rfin. Qed.
Lemma BSafe_cidr_s : BSafe p_cidr fits_cIffDataRecord.
Proof.
  unfold p_cidr. rd. unfold fits_cIffDataRecord. cbn [idr_type idr_fields]. rfin.
  match goal with H : zlen ?l = Z.of_nat (Z.to_nat (Z.max 0 (?n - 3))), U : ub 8 ?n |- _ => rewrite H; unfold ub in U; change (2 ^ 8) with 256 in U; lia end.
Qed.
Lemma BSafe_cidrs_s b : BSafe (p_cidrs b) fits_cidrs.
Proof.
  unfold p_cidrs. destruct b; [|apply BSafe_ret; split; [constructor|vm_compute; discriminate]]. eapply BSafe_bind; [apply BSafe_take; lia|]. intros n Hn.
  eapply BSafe_weaken; [eapply BSafe_count, BSafe_cidr_s|]. intros l [A B]. split; [exact A|]. eapply count_31; eassumption.
Qed.
Global Hint Resolve BSafe_csysid_s BSafe_cfo_s BSafe_cip_s BSafe_cidrs_s : brd.
Lemma kind_cases t : In t [1; 2; 3; 4; 5; 6; 7; 8; 9; 10; 11] -> is_transponder t = true \/ is_interrogator t = true.
Proof. cbn [In]. intros H. repeat destruct H as [<-|H]; try contradiction; auto. Qed.
Lemma BSafe_cm5_s t : BSafe (p_cm5 t) (fun b => is_transponder t = true \/ is_interrogator t = true -> fits_CMode5 b /\ cm5_ok t b).
Proof.
  unfold p_cm5. destruct (is_transponder t) eqn:E1; [|destruct (is_interrogator t) eqn:E2].
  - unfold p_cm5t. eapply BSafe_bind with (P := fun x => fits_CMode5 (CM5Transponder x) /\ cm5_ok t (CM5Transponder x)); [|intros x Hx; apply BSafe_ret; intros _; exact Hx].
    rd. unfold fits_CMode5, cm5_ok. cbn [m5t_status m5t_pin m5t_formats m5t_mode1 m5t_origin m5t_supplemental m5t_nav m5t_merit]. rfin.
  - unfold p_cm5i. eapply BSafe_bind with (P := fun x => fits_CMode5 (CM5Interrogator x) /\ cm5_ok t (CM5Interrogator x)); [|intros x Hx; apply BSafe_ret; intros _; exact Hx].
    rd. unfold fits_CMode5, cm5_ok. cbn [cm5i_status cm5i_formats cm5i_entity]. rfin.
  - apply BSafe_ret. intros [K|K]; discriminate K.
Qed.
Lemma sanitized l : Forall (ub 8) l -> sanitize_marking (sanitize_marking l) = sanitize_marking l /\ Forall (ub 8) (sanitize_marking l).
Proof.
  intros H. assert (B : bytes l) by (unfold bytes; eapply Forall_impl; [|exact H]; unfold ub, u8; change (2 ^ 8) with 256; auto).
  destruct (sanitize_spec l) as (s & t & E & A & _ & ->). assert (S : Forall scalar s) by (pose proof (lossy_scalar l B) as K; rewrite E in K; apply Forall_app in K; apply K).
  split.
  - pose proof (sanitize_padded s 32 0 S A ltac:(lia) ltac:(reflexivity)) as P. cbn [repeat] in P. rewrite app_nil_r in P. exact P.
  - pose proof (utf8_encode_bytes s S) as K. unfold bytes in K. eapply Forall_impl; [|exact K]. unfold ub, u8. change (2 ^ 8) with 256. auto.
Qed.
Lemma BSafe_cms_s t : BSafe (p_cms t) (fun b => is_transponder t = true \/ is_interrogator t = true -> identification_passes b -> fits_cModeS b /\ cms_ok t b).
Proof.
  unfold p_cms. destruct (is_transponder t) eqn:E1; [|destruct (is_interrogator t) eqn:E2].
  - unfold p_cmst. eapply BSafe_bind with (P := fun x => zlen (mst_id x) <= 15 -> fits_cModeS (MSTransponder x) /\ cms_ok t (MSTransponder x)); [|intros x Hx; apply BSafe_ret; intros _; exact Hx].
    rd. unfold fits_cModeS, cms_ok. cbn [mst_status mst_levels mst_domain mst_id mst_address mst_idtype mst_dap mst_altitude mst_capability]. intros Z.
    match goal with H : Forall (ub 8) ?l /\ _ |- _ => destruct (sanitized l (proj1 H)) end. rfin.
  - unfold p_cmsi. eapply BSafe_bind with (P := fun x => fits_cModeS (MSInterrogator x) /\ cms_ok t (MSInterrogator x)); [|intros x Hx; apply BSafe_ret; intros _ _; exact Hx].
    rd. unfold fits_cModeS, cms_ok. cbn [msi_status msi_levels]. rfin.
  - apply BSafe_ret. intros [K|K]; discriminate K.
Qed.
Global Hint Resolve BSafe_cm5_s BSafe_cms_s : brd.
Lemma BSafe_cl2_s : BSafe p_cl2 (fun l => layer_length_passes (len_cl2 l) -> fits_CIffLayer2 l).
Proof.
  unfold p_cl2. rd. unfold layer_length_passes, fits_CIffLayer2, fits_clh, fits_CLayerHeader in *. cbn [cl2_header cl2_beam cl2_op1 cl2_op2 cl2_params]. intros P. rfin.
  match goal with H : zlen ?l = Z.of_nat (Z.to_nat ?n), U : ub 8 ?n |- _ => rewrite H; unfold ub in U; change (2 ^ 8) with 256 in U; lia end.
Qed.
Lemma BSafe_cl3_s t : BSafe (p_cl3 t) (fun l => layer_length_passes (len_cl3 l) /\ (is_transponder t = true \/ is_interrogator t = true) -> fits_CIffLayer3 l /\ cm5_ok t (cl3_basic l)).
Proof.
  unfold p_cl3. rd. unfold layer_length_passes, fits_CIffLayer3, fits_clh, fits_CLayerHeader in *. cbn [cl3_header cl3_site cl3_app cl3_basic cl3_records]. intros [P K].
  match goal with H : _ \/ _ -> _ |- _ => destruct (H K); clear H end. rfin.
Qed.
Lemma BSafe_cl4_s t : BSafe (p_cl4 t) (fun l => layer_length_passes (len_cl4 l) /\ (is_transponder t = true \/ is_interrogator t = true) /\ identification_passes (cl4_basic l) -> fits_CIffLayer4 l /\ cms_ok t (cl4_basic l)).
Proof.
  unfold p_cl4. rd. unfold layer_length_passes, fits_CIffLayer4, fits_clh, fits_CLayerHeader in *. cbn [cl4_header cl4_site cl4_app cl4_basic cl4_records]. intros [P [K J]].
  match goal with H : _ \/ _ -> _ |- _ => destruct (H K J); clear H end. rfin.
Qed.
Lemma BSafe_cl5_s : BSafe p_cl5 (fun l => layer_length_passes (len_cl5 l) -> fits_CIffLayer5 l).
Proof.
  unfold p_cl5. rd. unfold layer_length_passes, fits_CIffLayer5, fits_clh, fits_CLayerHeader in *. cbn [cl5_header cl5_site cl5_app cl5_layers cl5_category cl5_records]. intros P. rfin.
Qed.
Global Hint Resolve BSafe_cl2_s BSafe_cl3_s BSafe_cl4_s BSafe_cl5_s : brd.
Lemma read_ciff : BSafe p_ciff (fun x => passes_on (CBIff x) -> fits_CIff x).
Proof.
  unfold p_ciff. rd. unfold passes_on, kind_known, fits_CIff, wfits_CIff, oub.
  cbn [CIff_units CIff_full CIff_emitting CIff_event CIff_antenna CIff_system CIff_designator CIff_specific CIff_data CIff_layer2 CIff_layer3 CIff_layer4 CIff_layer5].
  intros (P2 & P3 & P4 & P5).
  assert (K : (exists s, a5 = Some s /\ In (si_type s) [1; 2; 3; 4; 5; 6; 7; 8; 9; 10; 11]) -> is_transponder (sys_type a5) = true \/ is_interrogator (sys_type a5) = true).
  { intros (s & -> & J). cbn [sys_type]. now apply kind_cases. }
  assert (P2' : forall l, a9 = Some l -> layer_length_passes (len_cl2 l)) by (intros l E; apply (P2 l E)). clear P2.
  rfin; intros l E;
  match goal with
  | H : forall a, ?o = Some a -> _ -> _ /\ _, D : ?o = Some ?l |- _ => specialize (H l D); first [specialize (P3 l D); destruct P3 as [? ?] | specialize (P4 l D); destruct P4 as [? [? ?]]]; destruct H; auto
  end.
Qed.
Lemma read_cbody t : BSafe (p_cbody t) (fun b => body_matches t b /\ (passes_on b -> fits_cbody b)).
Proof.
  destruct (is_supported t) eqn:E.
  - unfold is_supported in E. apply existsb_exists in E as (k & Hk & Ek). apply Z.eqb_eq in Ek. subst k. cbn [In] in Hk.
    repeat (destruct Hk as [<-|Hk]; [unfold p_cbody; cbn -[p_ces p_cfire p_cdetonation p_ccollision p_ccreate p_cremove p_cstart p_cstop p_cack p_cactreq p_cactres p_cquery p_csetdata p_cdata p_cevent p_ccomment p_cemission p_cdesignator p_ctransmitter p_csignal p_creceiver p_ciff BSafe body_matches passes_on fits_cbody];
      eapply BSafe_bind; [first [eapply read_ces|eapply read_cfire|eapply read_cdetonation|eapply read_ccollision|eapply read_ccreate|eapply read_cremove|eapply read_cstart|eapply read_cstop|eapply read_cack|eapply read_cactreq|eapply read_cactres|eapply read_cquery|eapply read_csetdata|eapply read_cdata|eapply read_cevent|eapply read_ccomment|eapply read_cemission|eapply read_cdesignator|eapply read_ctransmitter|eapply read_csignal|eapply read_creceiver|eapply read_ciff]|];
      let x := fresh in let H := fresh in intros x H; apply BSafe_ret; split; [reflexivity|]; cbn [fits_cbody]; first [exact H | intros _; exact H]|]).
    contradiction.
  - rewrite p_cbody_unsupported by exact E. apply BSafe_ret. split; [exact E|]. intros _. exact I.
Qed.
Lemma read_cpdu : BSafe p_cpdu (fun p => passes_on (cp_body p) -> fits_CPdu p).
Proof.
  unfold p_cpdu. eapply BSafe_bind; [apply BSafe_cheader|]. intros h Hh. eapply BSafe_bind; [apply read_cbody|]. intros b [M F]. apply BSafe_ret. cbn [cp_body]. intros P.
  unfold fits_CPdu. cbn [cp_header cp_body]. auto.
Qed.
Lemma read_split i l rest : Split p_cpdu i l rest -> Forall (fun p => passes_on (cp_body p)) l -> Forall fits_CPdu l.
Proof.
  induction 1 as [|i r a l rest E S IH]; intros F; [constructor|]. inversion F as [|? ? F1 F2]; subst. constructor; [|auto].
  pose proof (read_cpdu i) as K. rewrite E in K. auto.
Qed.
(*@C28
   The conditions are exact: a PDU that can be passed on ([passes_on], C60) and has none of the lossy parts is read back as itself, from every place in every
   buffer, exactly if it fits the wire. *)
Lemma cdis_pdu_roundtrip_iff_pf : forall m p, passes_on (cp_body p) -> no_lossy_parts (cp_body p) ->
  ((exists n, reads_back (w_cpdu m p) p_cpdu p n) <-> fits_CPdu p).
Proof.
  intros m p P N. split.
  - intros [n R]. destruct (R (repeat false (Z.to_nat n)) 0 ltac:(lia)) as (b & _ & _ & E); [unfold zlen; rewrite repeat_length; lia|].
    pose proof (read_cpdu (from b 0)) as K. rewrite E in K. now apply K.
  - intros F. eexists. now apply cdis_pdu_roundtrip_exact_pf.
Qed.
(*@ex*)
Example cdis_iff_example : passes_on (CBEntityState (ex_es None)) /\ no_lossy_parts (CBEntityState (ex_es None)) /\ fits_CPdu (ex_pdu 1 (CBEntityState (ex_es None))).
Proof.
  split; [|split; apply cdis_pdu_example]. cbn [passes_on]. split; [|split].
  - unfold opt_passes. intros w E. discriminate E.
  - unfold opt_passes. intros w E. cbn in E. injection E as <-. intros _. cbn. intuition discriminate.
  - constructor.
Qed.
Lemma passes_img b : passes_on b -> passes_on (img_cbody b).
Proof.
  assert (W : forall w, altitude_passes w -> altitude_passes (img_cwc w)).
  { intros [la lo al]. unfold altitude_passes, img_cwc. cbn [cwc_alt]. change (2 ^ 20) with 1048576. intros H. unfold img24. destruct (Z.ltb_spec al (-1048576)); lia. }
  assert (O : forall o, opt_passes altitude_passes o -> opt_passes altitude_passes (option_map (fun a => img_cwc a) o)).
  { intros [w|] H a E; cbn [option_map] in E; inversion E; subst. apply W, H. reflexivity. }
  destruct b; cbn [passes_on img_cbody]; try exact (fun H => H).
  - cbn [img_ces CEntityState_location CEntityState_marking CEntityState_vps]. intros (A & B & C). auto.
  - cbn [img_cfire CFire_location]. auto.
  - cbn [img_cdetonation CDetonation_location CDetonation_vps]. intros (A & B). auto.
  - cbn [img_cdesignator CDesignator_spot_location]. auto.
  - cbn [img_ctransmitter CTransmitter_antenna CTransmitter_vtps]. intros (A & B). auto.
  - cbn [img_ciff CIff_layer2 CIff_layer3 CIff_layer4 CIff_layer5]. intros (A & B & C & D).
    repeat match goal with |- _ /\ _ => apply conj end; intros y E.
    + destruct (CIff_layer2 x) as [y0|]; cbn [option_map] in E; inversion E; subst y. destruct (A y0 eq_refl) as [A1 A2].
      assert (L : len_cl2 (img_cl2 y0) = len_cl2 y0 - excess_beam_data (cl2_beam y0)) by (unfold len_cl2, img_cl2; cbn [cl2_beam cl2_params]; pose proof (excess_beam (cl2_beam y0)); lia).
      assert (Z : excess_beam_data (cl2_beam (img_cl2 y0)) = 0) by (unfold img_cl2, img_cbeam_data, excess_beam_data; cbn [cl2_beam cbd_az_center cbd_az_sweep cbd_el_center cbd_el_sweep]; lia).
      rewrite Z, L, Z.sub_0_r. auto.
    + destruct (CIff_layer3 x) as [y0|]; cbn [option_map] in E; inversion E; subst y. destruct (B y0 eq_refl). auto.
    + destruct (CIff_layer4 x) as [y0|]; cbn [option_map] in E; inversion E; subst y. destruct (C y0 eq_refl) as (? & ? & ?). auto.
    + destruct (CIff_layer5 x) as [y0|]; cbn [option_map] in E; inversion E; subst y. exact (D y0 eq_refl).
Qed.
Lemma same_trans a b c : same_but_lossy a b -> same_but_lossy b c -> same_but_lossy a c.
Proof. intros [H1 H2] [H3 H4]. split; congruence. Qed.
Lemma same_trans_all l1 l2 : Forall2 same_but_lossy l1 l2 -> forall l3, Forall2 same_but_lossy l2 l3 -> Forall2 same_but_lossy l1 l3.
Proof. induction 1; intros l3 H3; inversion H3; subst; constructor; [eapply same_trans; eassumption|auto]. Qed.
Lemma same_refl_all l : Forall2 same_but_lossy l l.
Proof. induction l; constructor; [split; reflexivity|assumption]. Qed.
Lemma hop_passes l l' : cdis_hop l l' -> l <> [] -> Forall fits_CPdu l -> Forall (fun p => passes_on (cp_body p)) l ->
  l' <> [] /\ Forall fits_CPdu l' /\ Forall (fun p => passes_on (cp_body p)) l' /\ Forall2 same_but_lossy l' l.
Proof.
  intros (m & buf & buf' & n & B & E & P) Hne F Q. destruct (packet_roundtrip_img m l buf Hne F B) as (b1 & E1 & P1 & S). rewrite E in E1. inversion E1; subst b1 n.
  rewrite P in P1. inversion P1; subst l'.
  assert (V : Forall (fun p => passes_on (cp_body p)) (map img_cpdu l)).
  { rewrite Forall_forall in *. intros q Hq. apply in_map_iff in Hq as (p & <- & Hp). unfold img_cpdu. cbn [cp_body]. apply passes_img, Q, Hp. }
  repeat match goal with |- _ /\ _ => apply conj end; auto.
  - destruct l; [contradiction|discriminate].
  - destruct (cdis_parse_total_pf (to_octets (firstn (Z.to_nat (total_bits l)) buf'))) as (_ & _ & T). apply T in P as (_ & rest & K). exact (read_split _ _ _ K V).
Qed.
Lemma hops_pass l l' : cdis_hops l l' -> l <> [] -> Forall fits_CPdu l -> Forall (fun p => passes_on (cp_body p)) l ->
  l' <> [] /\ Forall fits_CPdu l' /\ Forall (fun p => passes_on (cp_body p)) l' /\ Forall2 same_but_lossy l' l.
Proof.
  induction 1 as [l|l l1 l2 H IH K]; intros Hne F Q.
  - repeat match goal with |- _ /\ _ => apply conj end; auto. apply same_refl_all.
  - destruct (IH Hne F Q) as (A & B & C & D). destruct (hop_passes _ _ K A B C) as (A' & B' & C' & D'). repeat match goal with |- _ /\ _ => apply conj end; auto.
    eapply same_trans_all; eassumption.
Qed.
(*@C60 Whatever C-DIS octets are read, if each PDU got from them passes [passes_on], the PDUs can be written in either build into any buffer with
   room, what was written is read back, and so on for any number of hops: after all of them there are the same PDUs in the same order, the lossy
   fields aside, and there is always a next hop. *)
Lemma cdis_relay_pf : forall i l, cparse i = CParsed l -> Forall (fun p => passes_on (cp_body p)) l -> forall l', cdis_hops l l' ->
  Forall2 same_but_lossy l' l /\
  forall m buf, bits_taken l' <= zlen buf -> exists buf' l'', serialize_all m l' buf 0 = Some (buf', bits_taken l') /\
    cparse (to_octets (firstn (Z.to_nat (bits_taken l')) buf')) = CParsed l'' /\ cdis_hop l' l''.
Proof.
  intros i l E P l' H. destruct (cdis_parse_total_pf i) as (_ & _ & T). apply T in E as (Hne & rest & S). pose proof (read_split _ _ _ S P) as F.
  destruct (hops_pass _ _ H Hne F P) as (A & B & C & D). split; [exact D|]. intros m buf L. destruct (packet_roundtrip_img m l' buf A B L) as (b & R1 & R2 & R3).
  exists b, (map img_cpdu l'). split; [exact R1|]. split; [exact R2|]. exists m, buf, b, (bits_taken l'). auto.
Qed.
Lemma read_svint24 : BSafe p_svint24 (fun v => - 2 ^ 20 <= v < 2 ^ 24).
Proof.
  unfold p_svint24, p_svint. eapply BSafe_bind; [apply BSafe_take; lia|]. intros c Hc. cbv beta in *. eapply BSafe_bind; [apply BSafe_bool|]. intros s _.
  eapply BSafe_bind with (P := fun v => 0 <= v < 2 ^ (svint24_bits c - 1)).
  - apply BSafe_take. unfold svint24_bits; destruct (c =? 0), (c =? 1), (c =? 2); lia.
  - intros v Hv. apply BSafe_ret. unfold svint24_min, svint24_bits in *. change (2 ^ 20) with 1048576. change (2 ^ 24) with 16777216.
    destruct s, (c =? 0), (c =? 1), (c =? 2); cbn in Hv; lia.
Qed.
(*@C60 An altitude that has been read is at least - 2^20 and less than 2^24; so the one thing [altitude_passes] asks of it is to be less than 2^23. *)
Lemma cdis_altitude_read_pf : forall i rest w, p_cwc i = POk rest w -> - 2 ^ 20 <= cwc_alt w < 2 ^ 24.
Proof.
  intros i rest w E. assert (K : BSafe p_cwc (fun w => - 2 ^ 20 <= cwc_alt w < 2 ^ 24)).
  { unfold p_cwc. eapply BSafe_bind; [apply BSafe_take_s; lia|]. intros la _. eapply BSafe_bind; [apply BSafe_take_s; lia|]. intros lo _.
    eapply BSafe_bind; [apply read_svint24|]. intros al Hal. apply BSafe_ret. exact Hal. }
  specialize (K i). rewrite E in K. exact K.
Qed.
(** ** What does not pass on *)
Definition not_passed_on (i : list Z) : Prop := exists l, cparse i = CParsed l /\ forall m, exists buf' n,
  serialize_all m l (repeat false 1200) 0 = Some (buf', n) /\ n <= 1200 /\
  forall qs, cparse (to_octets (firstn (Z.to_nat n) buf')) = CParsed qs -> ~ Forall2 same_but_lossy qs l.
Definition blanked (l : list CPdu) := map (fun p => (cp_header p, blank_lossy (cp_body p))) l.
Lemma same_blanked qs l : Forall2 same_but_lossy qs l -> blanked qs = blanked l.
Proof. induction 1 as [|p q ? ? [H1 H2]]; [reflexivity|]. cbn [blanked map]. unfold blanked in IHForall2. rewrite H1, H2, IHForall2. reflexivity. Qed.
Lemma differs o l : match o with CParsed qs => blanked qs <> blanked l | _ => True end -> forall qs, o = CParsed qs -> ~ Forall2 same_but_lossy qs l.
Proof. intros H qs -> K. apply H, same_blanked, K. Qed.
Ltac refute := eexists; split; [vm_compute; reflexivity|]; intros []; do 2 eexists; (split; [vm_compute; reflexivity|]; split; [discriminate|]; apply differs; vm_compute; first [discriminate | exact I]).
(*@C60 A marking in the five-bit code with the letter Y, which the reader has a code for and the writer has not, comes back as another marking. *)
Lemma cdis_relay_marking_refuted_pf : not_passed_on
  [78; 2; 0; 241; 32; 1; 214; 1; 82; 36; 1; 0; 128; 48; 137; 56; 66; 33; 144; 5; 123; 80; 0; 0; 0; 0; 77; 34; 84; 32].
Proof. refute. Qed.
(*@C60 An Emission with an emitter system does not come back: the writer leaves out the system number the reader expects. *)
Lemma cdis_relay_emission_refuted_pf : not_passed_on
  [78; 46; 0; 241; 32; 0; 126; 1; 0; 0; 0; 0; 0; 0; 0; 0; 0; 0; 128; 0; 0; 0; 0; 0; 0; 0; 0; 0; 0].
Proof. refute. Qed.
(*@C60 A Transmitter without variable transmitter parameters does not come back when a PDU follows it: the writer leaves out their number, which the
   reader expects. *)
Lemma cdis_relay_transmitter_refuted_pf : not_passed_on
  [78; 50; 0; 241; 32; 1; 84; 0; 0; 192; 16; 8; 3; 1; 32; 129; 56; 8; 3; 196; 128; 7; 88; 5; 72; 144; 4; 2; 0; 194; 36; 225; 8; 134; 64; 21; 237; 64; 0; 0; 0; 1; 52; 136; 16; 128].
Proof. refute. Qed.
(*@C60 An IFF layer 3 under a system type that is neither a transponder nor an interrogator: the reader takes no basic data and fills in a default,
   which the writer writes and the reader then takes for the next PDU. *)
Lemma cdis_relay_iff_layer3_refuted_pf : not_passed_on
  [78; 56; 0; 241; 32; 0; 126; 0; 64; 8; 0; 0; 0; 0; 0; 0; 0; 0; 32; 0; 0; 0; 0; 0; 1; 56; 8; 3; 196; 128; 7; 88; 5; 72; 144; 4; 2; 0; 194; 36; 225; 8; 134; 64; 21; 237; 64; 0; 0; 0; 1; 52; 136; 16; 128].
Proof. refute. Qed.
(*@ex*)
Example cdis_relay_example : exists l, cparse
  [78; 4; 0; 241; 32; 2; 224; 0; 128; 4; 2; 0; 192; 16; 8; 3; 0; 64; 32; 12; 1; 0; 128; 48; 0; 0; 0; 4; 158; 26; 136; 0; 2; 105; 19; 132; 34; 25; 0; 0; 192; 1; 0; 80; 24; 7; 78; 2; 0; 241; 32; 1; 214; 1; 82; 36; 1; 0; 128; 48; 137; 56; 66; 33; 144; 5; 123; 80; 0; 0; 0; 0; 77; 34; 4; 64] = CParsed l /\
  map (fun p => ch_type (cp_header p)) l = [2; 1] /\ Forall (fun p => passes_on (cp_body p)) l.
Proof.
  eexists. split; [vm_compute; reflexivity|]. split; [reflexivity|]. repeat constructor; cbn -[Z.pow Z.opp];
  unfold altitude_passes, opt_passes, marking_passes; cbn [cwc_alt]; try (intros ? E; inversion E; cbn; intuition discriminate); try lia; try discriminate.
Qed.
Lemma read_cpv : BSafe p_cpv fits_CParameterValue.
Proof. unfold p_cpv. rd. unfold fits_CParameterValue. cbn. rfin. Qed.
Global Hint Resolve read_cpv : brd.
Lemma class_metric t : ub 14 t -> ub 5 (Z.land t 31) /\ (t - Z.land t 31) mod 32 = 0 /\ ub 14 (t - Z.land t 31).
Proof.
  rewrite land31. unfold ub. change (2 ^ 14) with 16384. change (2 ^ 5) with 32. intros H. pose proof (Z.mod_pos_bound t 32 ltac:(lia)). pose proof (Z.div_mod t 32 ltac:(lia)).
  assert (E : t - t mod 32 = (t / 32) * 32) by lia. rewrite E, Z.mod_mul by lia. assert (0 <= t / 32) by (apply Z.div_pos; lia). lia.
Qed.
(*@C60 A variable parameter read in the compressed form, unless it is of an unknown kind, passes [parameters_pass]: it fits the compressed form again. *)
Lemma cdis_compressed_parameter_pf : forall i rest v, p_cvp (true :: i) = POk rest v -> v <> CVPUnspecified -> parameters_pass [v].
Proof.
  intros i rest v E N. constructor; [|constructor]. unfold p_cvp in E. assert (B : btake 1 (true :: i) = POk i 1) by (change (true :: i) with ([true] ++ i); now rewrite btake_app).
  unfold pbind at 1 in E. rewrite B in E. change (negb (1 =? 0)) with true in E. cbv iota in E.
  assert (K : BSafe (ty <- btake 3;; p_cvp_body ty true)%parse (fun v => v <> CVPUnspecified -> fits_CVariableParameter v)).
  { eapply BSafe_bind; [apply BSafe_take; lia|]. intros ty _. unfold p_cvp_body.
    destruct (ty =? 0); [|destruct (ty =? 1); [|destruct (ty =? 2); [|destruct (ty =? 3); [|destruct (ty =? 4)]]]].
    - eapply BSafe_bind with (P := fits_CArticulated); [|intros x Hx; apply BSafe_ret; intros _; exact Hx]. unfold p_carticulated. rd. unfold fits_CArticulated. cbn [car_change car_attachment car_metric car_class car_value].
      match goal with H : ub 14 _ |- _ => destruct (class_metric _ H) as (? & ? & ?) end. rfin.
    - eapply BSafe_bind with (P := fits_CAttached); [|intros x Hx; apply BSafe_ret; intros _; exact Hx]. unfold p_cattached. rd. unfold fits_CAttached. cbn. rfin.
    - eapply BSafe_bind with (P := fits_CSeparation); [|intros x Hx; apply BSafe_ret; intros _; exact Hx]. unfold p_cseparation. rd. unfold fits_CSeparation. cbn. rfin.
    - eapply BSafe_bind with (P := fits_CEntityTypeVP); [|intros x Hx; apply BSafe_ret; intros _; exact Hx]. unfold p_cetvp. rd. unfold fits_CEntityTypeVP. cbn. rfin.
    - eapply BSafe_bind with (P := fits_CAssociation); [|intros x Hx; apply BSafe_ret; intros _; exact Hx]. unfold p_cassociation. rd. unfold fits_CAssociation. cbn. rfin.
    - apply BSafe_ret. intros K. now destruct K. }
  specialize (K i). rewrite E in K. exact (K N).
Qed.

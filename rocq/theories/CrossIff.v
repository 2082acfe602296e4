(** * Across the C-DIS wire: what the encoder makes of an IFF PDU C-DIS has room for fits the wire (lemmas) *)
From Coq Require Import ZArith List Lia Bool SpecFloat Reals Lra Psatz.
From Flocq Require Import Core BinarySingleNaN.
From Verif Require Import Base CdisBase DisCommon DisHeader DisLists DisSimman DisLogistics DisWarfare DisEntity DisEmission DisRadio DisIff DisPdu DisPacket
  CdisRecords CdisBodies1 CdisBodies2 CdisIff CdisPdu CdisCodec1 CdisCodec2 CdisCodec3 SpecFloatValue SpecContent SpecBody SpecCross SpecCrossIff SpecCdisPdu SpecCodec SpecGateway
  FloatReal FloatBits FloatBits64 Utf8 L_Codec L_CodecNum L_CodecPrec L_CodecContent L_CodecSim L_Gateway CrossFits.
Import ListNotations. Open Scope Z_scope.

Ltac upows := unfold ub in *; change (2 ^ 1) with 2 in *; change (2 ^ 3) with 8 in *; change (2 ^ 4) with 16 in *; change (2 ^ 5) with 32 in *; change (2 ^ 6) with 64 in *;
  change (2 ^ 8) with 256 in *; change (2 ^ 10) with 1024 in *; change (2 ^ 16) with 65536 in *; change (2 ^ 32) with 4294967296 in *.
Lemma below z n : (IZR z < IZR n + 1)%R -> z <= n.
Proof. intros H. rewrite <- plus_IZR in H. apply lt_IZR in H. lia. Qed.
Lemma above z n : (IZR n - 1 < IZR z)%R -> n <= z.
Proof. intros H. rewrite <- minus_IZR in H. apply lt_IZR in H. lia. Qed.
Lemma angle_fits b : f32_finite b -> (-900 <= f32_value b <= 900)%R -> sb 13 (enc_beam_angle b).
Proof.
  intros F B. destruct (of_bits_fin b F) as [O V]. destruct beam_ok as [T TV].
  destruct (scaled sf_round_cast (/ 2) (sf_of_bits b) beam_scale (-32768) 32767 round_converts ltac:(lra) O T ltac:(lia) ltac:(lia)) as [_ N].
  rewrite V in N. rewrite clip_id in N by nra. apply Rabs_le_inv in N. unfold sb. change (2 ^ (13 - 1)) with 4096.
  assert (-4096 <= enc_beam_angle b) by (apply above; unfold enc_beam_angle; nra). assert (enc_beam_angle b <= 4095) by (apply below; unfold enc_beam_angle; nra). lia.
Qed.
Lemma sync_tight : (val sync_scale <= 10.230001)%R.
Proof. match goal with |- context [SF2R radix2 ?c] => let v := eval vm_compute in c in change c with v end; cbn [SF2R]; unfold F2R; cbn; lra. Qed.
Lemma sync_fits b : f32_finite b -> (f32_value b <= 100)%R -> ub 10 (sf_round_cast 0 65535 (sfmul (sf_of_bits b) sync_scale)).
Proof.
  intros F B. destruct (of_bits_fin b F) as [O V]. destruct sync_ok as [T TV]. pose proof sync_tight as U.
  destruct (scaled sf_round_cast (/ 2) (sf_of_bits b) sync_scale 0 65535 round_converts ltac:(lra) O T ltac:(lia) ltac:(lia)) as [Z N].
  rewrite V in N. apply Rabs_le_inv in N. unfold ub. change (2 ^ 10) with 1024. split; [lia|]. apply Z.lt_le_trans with 1024; [|lia].
  assert (sf_round_cast 0 65535 (sfmul (sf_of_bits b) sync_scale) <= 1023); [|lia]. apply below.
  assert (clip 0 65535 (f32_value b * val sync_scale) <= 1023.1)%R; [|lra]. unfold clip.
  assert (f32_value b * val sync_scale <= 1023.1)%R by nra.
  unfold Rmax, Rmin. repeat destruct (Rle_dec _ _); lra.
Qed.
Lemma beam_fits b : narrow_beam b -> fits_CBeamData (enc_beam b).
Proof.
  intros (A & F & S). unfold fits_CBeamData, enc_beam. cbn [cbd_az_center cbd_az_sweep cbd_el_center cbd_el_sweep cbd_sync].
  do 4 (split; [apply angle_fits; apply A; cbn; auto|]). now apply sync_fits.
Qed.
Lemma uint_fits b : f32_finite b -> (0 <= f32_value b <= 1023)%R -> ub 10 (f32_to_uint 65535 b).
Proof.
  intros F B. destruct (of_bits_fin b F) as [O V]. unfold f32_to_uint. rewrite (from_ok 0 65535 _ O ltac:(lia)) by (rewrite V; lra). cbn [unopt]. rewrite V. unfold ub. change (2 ^ 10) with 1024.
  assert (0 <= Ztrunc (f32_value b)) by (rewrite <- (Ztrunc_IZR 0); apply Ztrunc_le; lra).
  assert (Ztrunc (f32_value b) <= 1023) by (rewrite <- (Ztrunc_IZR 1023); apply Ztrunc_le; lra). lia.
Qed.
Lemma uint_range hi b : 0 <= hi -> 0 <= f32_to_uint hi b <= hi.
Proof.
  intros H. unfold f32_to_uint, sf_from. destruct (sf_of_bits b) as [s|s| |s p e]; cbn [unopt]; try lia.
  destruct (Z.leb_spec 0 (sf_trunc s p e)), (Z.leb_spec (sf_trunc s p e) hi); cbn [andb unopt]; lia.
Qed.
Lemma interrogation_fits p : wf_IffParameter p -> narrow_interrogation p -> fits_CIffParameter (enc_ip p).
Proof.
  unfold wf_IffParameter, u8. intros (_ & _ & _ & _ & _ & W1 & W2 & W3 & W4) (F & B & M & A). unfold fits_CIffParameter, enc_ip.
  cbn [cip_erp cip_frequency cip_pgrf cip_pulse cip_burst cip_modes cip_s1 cip_s2 cip_s3].
  split; [pose proof (uint_range 255 (ip_erp p)); upows; lia|]. split; [now apply cff_kept|].
  do 3 (split; [apply uint_fits; apply A; cbn; auto|]). upows. lia.
Qed.
Lemma records_fit l : Forall wf_IffDataRecord l -> narrow_records l -> fits_cidrs l /\ zsum (map len_cidr l) <= 16000.
Proof.
  intros W (N & L & S). split.
  - split; [|exact L]. rewrite Forall_forall in *. intros r I. destruct (W r I) as [A B]. destruct (N r I) as [C D]. unfold fits_cIffDataRecord. unfold u32 in A.
    split; [upows; lia|]. split; [now apply octets_fit|exact D].
  - assert (E : zsum (map len_cidr l) = 8 * zsum (map (fun r => 3 + zlen (idr_fields r)) l)); [|lia].
    clear. induction l as [|r l IH]; cbn [map zsum]; [reflexivity|]. rewrite IH. unfold len_cidr. lia.
Qed.
Lemma svint13_le v : len_svint13 v <= 15.
Proof. unfold len_svint13, len_vint, svint13_bits. destruct (svint13_class v =? 0), (svint13_class v =? 1), (svint13_class v =? 2); lia. Qed.
Lemma uvint16_le v : len_uvint16 v <= 18.
Proof. unfold len_uvint16, len_vint, uvint16_bits. destruct (uvint16_class v =? 0), (uvint16_class v =? 1), (uvint16_class v =? 2); lia. Qed.
Lemma layer2_fits l : wf_IffLayer2 l -> narrow_layer_2 l -> fits_CIffLayer2 (enc_l2 l).
Proof.
  unfold wf_IffLayer2, wf_LayerHeader, u8. intros ((W1 & W2 & _) & W3 & W4 & W5 & W6) (N1 & N2 & N3 & N4). unfold fits_CIffLayer2, fits_clh, enc_l2, enc_lh. cbv zeta.
  cbn [cl2_header cl2_beam cl2_op1 cl2_op2 cl2_params clh_number clh_info clh_length].
  split; [upows; lia|]. split.
  { unfold len_cl2, len_cbeam_data. cbn [cl2_beam cl2_params]. rewrite (zsum_const len_cip 86) by reflexivity. rewrite zlen_map.
    repeat match goal with |- context [len_svint13 ?v] => let H := fresh in pose proof (svint13_le v) as H; generalize dependent (len_svint13 v); intros end. lia. }
  split; [now apply beam_fits|]. do 2 (split; [upows; lia|]). split; [|rewrite zlen_map; lia].
  rewrite Forall_forall in *. intros c I. apply in_map_iff in I. destruct I as (p & <- & I). apply interrogation_fits; auto.
Qed.
Lemma layer3_fits t l : wf_IffLayer3 l -> narrow_layer_3 t l -> fits_CIffLayer3 (enc_l3 l) /\ cm5_ok t (cl3_basic (enc_l3 l)).
Proof.
  unfold wf_IffLayer3, wf_LayerHeader, wf_SimulationAddress, u8, u16. intros ((W1 & W2 & _) & W3 & W4 & W5) (N1 & N2 & N3 & N4). destruct (records_fit _ W5 N4) as [R S].
  unfold fits_CIffLayer3, fits_clh, enc_l3, enc_lh. cbv zeta. cbn [cl3_header cl3_site cl3_app cl3_basic cl3_records clh_number clh_info clh_length].
  assert (B : fits_CMode5 (enc_m5 (l3_basic l)) /\ cm5_ok t (enc_m5 (l3_basic l)) /\ len_cm5 (enc_m5 (l3_basic l)) <= 112).
  { destruct (l3_basic l) as [x|x]; cbn [wf_Mode5BasicData enc_m5 fits_CMode5 cm5_ok narrow_mode5 m5_ok len_cm5 cm5i_status cm5i_formats cm5i_entity] in *.
    - destruct W4 as (A1 & A2 & A3). unfold u8, u32 in *. split; [split; [upows; lia|]; split; [upows; lia|now apply eid_fits]|]. split; [exact N3|].
      unfold len_cm5i, len_ceid. cbn [cm5i_entity]. repeat match goal with |- context [len_uvint16 ?v] => let H := fresh in pose proof (uvint16_le v) as H; generalize dependent (len_uvint16 v); intros end. lia.
    - unfold wf_M5T, u8, u16, u32 in W4. split; [upows; lia|]. split; [exact N3|lia]. }
  destruct B as (B1 & B2 & B3). split; [|exact B2]. split; [upows; lia|]. split.
  { unfold len_cl3, bits_cidrs. cbn [cl3_site cl3_app cl3_basic cl3_records]. pose proof (uvint16_le (sa_site (l3_sim l))). pose proof (uvint16_le (sa_app (l3_sim l))). destruct (nonempty _); lia. }
  do 2 (split; [upows; lia|]). split; assumption.
Qed.
Lemma layer4_fits t l : wf_IffLayer4 l -> narrow_layer_4 t l -> fits_CIffLayer4 (enc_l4 l) /\ cms_ok t (cl4_basic (enc_l4 l)).
Proof.
  unfold wf_IffLayer4, wf_LayerHeader, wf_SimulationAddress, u8, u16. intros ((W1 & W2 & _) & W3 & W4 & W5) (N1 & N2 & N3 & N4). destruct (records_fit _ W5 N4) as [R S].
  unfold fits_CIffLayer4, fits_clh, enc_l4, enc_lh. cbv zeta. cbn [cl4_header cl4_site cl4_app cl4_basic cl4_records clh_number clh_info clh_length].
  assert (B : fits_cModeS (l4_basic l) /\ cms_ok t (l4_basic l) /\ len_cms (l4_basic l) <= 162).
  { destruct (l4_basic l) as [x|x]; cbn [wf_ModeSBasicData fits_cModeS cms_ok narrow_modes ms_ok len_cms] in *.
    - unfold wf_MSI, u8 in W4. split; [upows; lia|]. split; [exact N3|lia].
    - unfold wf_MST, u8, u16, u32 in W4. destruct N3 as (M1 & M2 & M3 & M4 & M5 & M6 & M7 & M8). destruct W4 as (A1 & A2 & A3 & A4 & A5 & A6 & A7 & A8 & A9). destruct N2 as [N2 N2'].
      split; [|split; [|lia]].
      + do 3 (split; [upows; lia|]). split; [now apply octets_fit|]. split; [lia|]. upows. lia.
      + do 5 (split; [assumption|]). pose proof (sanitize_zeros (mst_id x) 0 M7 M8) as Z. cbn [repeat] in Z. now rewrite app_nil_r in Z. }
  destruct B as (B1 & B2 & B3). split; [|exact B2]. split; [upows; lia|]. split.
  { unfold len_cl4. cbn [cl4_site cl4_app cl4_basic cl4_records]. pose proof (uvint16_le (sa_site (l4_sim l))). pose proof (uvint16_le (sa_app (l4_sim l))). lia. }
  do 2 (split; [upows; lia|]). split; assumption.
Qed.
Lemma layer5_fits l : wf_IffLayer5 l -> narrow_layer_5 l -> fits_CIffLayer5 (enc_l5 l).
Proof.
  unfold wf_IffLayer5, wf_LayerHeader, wf_SimulationAddress, u8, u16. intros ((W1 & W2 & _) & W3 & W4 & W5 & W6) (N1 & N2 & N3 & N4). destruct (records_fit _ W6 N4) as [R S].
  unfold fits_CIffLayer5, fits_clh, enc_l5, enc_lh. cbv zeta. cbn [cl5_header cl5_site cl5_app cl5_layers cl5_category cl5_records clh_number clh_info clh_length].
  split; [upows; lia|]. split.
  { unfold len_cl5. cbn [cl5_site cl5_app cl5_records]. pose proof (uvint16_le (sa_site (l5_sim l))). pose proof (uvint16_le (sa_app (l5_sim l))). lia. }
  do 4 (split; [upows; lia|]). exact R.
Qed.
Lemma nonzero_fits n z : ub n z -> oub n (some_nonzero z).
Proof. intros H a. unfold some_nonzero. destruct (_ =? 0); intros E; [discriminate E|injection E as <-; exact H]. Qed.
Lemma map_some {A B} (f : A -> B) o b : option_map f o = Some b -> exists a, o = Some a /\ b = f a.
Proof. destruct o as [a|]; cbn; [|discriminate]. intros E. injection E as <-. eauto. Qed.
Lemma is_some_map {A B} (f : A -> B) o : is_some (option_map f o) = is_some o. Proof. destruct o; reflexivity. Qed.
Lemma iff_fits o now st x : wf_Iff x -> narrow_iff x -> (CIff_system (fst (enc_iff o now st x)) <> None \/ no_basic_data x) -> fits_CIff (fst (enc_iff o now st x)).
Proof.
  unfold wf_Iff, u8. intros (W1 & W2 & W3 & W4 & W5 & W6 & W7 & W8 & W9 & W10 & W11) (S & (L0 & L2 & L3 & L4 & L5) & N2 & N3 & N4 & N5).
  unfold enc_iff. cbv zeta. destruct (coordinates_fit (Iff_antenna x)) as [CF CU]. destruct (enc_ecv (Iff_antenna x)) as [v u]. cbn [fst snd] in CF, CU.
  assert (A : let '(ant, units) := (if vec_zero (Iff_antenna x) then (None, 0) else (Some v, u)) in ub 1 units /\ forall a, ant = Some a -> fits_CEntityCoordinateVector a).
  { destruct (vec_zero _); split; [upows; lia|intros; discriminate|exact CU|intros a E; injection E as <-; exact CF]. }
  destruct (if vec_zero _ then _ else _) as [ant units]. destruct A as [A1 A2].
  cbn [fst CIff_system]. intros P.
  assert (WL : u8 (fo_layers (Iff_data x))) by apply W7.
  unfold fits_CIff, wfits_CIff.
  cbn [CIff_units CIff_full CIff_emitting CIff_event CIff_antenna CIff_system CIff_designator CIff_specific CIff_data CIff_layer2 CIff_layer3 CIff_layer4 CIff_layer5].
  split; [|].
  - split; [exact A1|]. split; [now apply eid_fits|]. split; [intros a E; destruct (event_zero _); [discriminate E|injection E as <-; now apply event_fits]|]. split; [exact A2|].
    split. { intros a E. destruct (partial_ok _ _ _ _); [discriminate E|injection E as <-]. destruct S as (S1 & S2 & S3). unfold wf_SystemId, u8, u16 in W4. unfold fits_cSystemId. upows. lia. }
    split; [upows; lia|]. split; [apply nonzero_fits; upows; lia|].
    split. { unfold wf_FundOpData, u8, u16 in W7. unfold fits_CFundOpData, enc_fod. cbn [cfo_status cfo_field1 cfo_layers cfo_field2 cfo_p1 cfo_p2 cfo_p3 cfo_p4 cfo_p5 cfo_p6].
      repeat match goal with |- _ /\ _ => split | |- oub _ _ => apply nonzero_fits end; upows; lia. }
    split; [intros a E; apply map_some in E; destruct E as (l & E & ->); apply layer2_fits; [rewrite E in W8; exact W8|now apply N2]|].
    split; [intros a E; apply map_some in E; destruct E as (l & E & ->); eapply layer3_fits; [rewrite E in W9; exact W9|now apply N3]|].
    split; [intros a E; apply map_some in E; destruct E as (l & E & ->); eapply layer4_fits; [rewrite E in W10; exact W10|now apply N4]|].
    intros a E; apply map_some in E; destruct E as (l & E & ->); apply layer5_fits; [rewrite E in W11; exact W11|now apply N5].
  - unfold enc_fod. cbn [cfo_layers]. rewrite !is_some_map.
    split. { unfold bits_ok, bits_of, m_layers. rewrite Z.lor_0_r. change 127 with (Z.ones 7). rewrite Z.land_ones by lia. apply Z.mod_small. unfold u8 in WL. change (2 ^ 7) with 128. lia. }
    do 4 (split; [assumption|]).
    split; intros a E; apply map_some in E; destruct E as (l & E & ->).
    + destruct P as [P|[P _]]; [|congruence]. destruct (partial_ok _ _ _ _); [now elim P|]. cbn [sys_type]. eapply layer3_fits; [rewrite E in W9; exact W9|now apply N3].
    + destruct P as [P|[_ P]]; [|congruence]. destruct (partial_ok _ _ _ _); [now elim P|]. cbn [sys_type]. eapply layer4_fits; [rewrite E in W10; exact W10|now apply N4].
Qed.

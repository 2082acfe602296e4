(** Transmitter and IsGroupOf PDU bodies: model, parser, writer, body length.
    Sources: /repo/dis-rs/src/common/{transmitter,is_group_of}/{model,parser,writer}.rs.
    Conventions as in DisCommon. *)
From Verif Require Import Base DisCommon DisLists DisWarfare DisEntity.

(** * Transmitter *)
(* common/transmitter/model.rs:112-116 *)
Record SpreadSpectrum := MkSpread { ss_hopping : bool; ss_noise : bool; ss_time : bool }.
(* TransmitterMajorModulation (generated; used in common/transmitter/model.rs:343-404).  [MMDetail k d] stands for the
   eight variants Amplitude (k=1) .. SATCOM (k=8) carrying the wire value [d] of their detail enumeration. *)
Inductive MajorModulation := MMNoStatement | MMDetail (k d : Z) | MMUnspecified (d : Z).
(* common/transmitter/model.rs:74-78 *)
Record ModulationType := MkModulationType { mt_spread : SpreadSpectrum; mt_major : MajorModulation; mt_system : Z }.
(* common/transmitter/model.rs:188-191, 226-229; [ck_diphase] is [crypto_mode == Diphase] *)
Record CryptoKeyId := MkCryptoKeyId { ck_key : Z; ck_diphase : bool }.
(* common/transmitter/model.rs:247-255 *)
Record BeamAntennaPattern := MkBAP {
  bap_direction : Orientation; bap_azimuth : Z; bap_elevation : Z; bap_reference : Z; bap_ez : Z; bap_ex : Z; bap_phase : Z }.
(* common/transmitter/model.rs:313-316 *)
Record VTP := MkVTP { vtp_type : Z; vtp_fields : list Z }.
(* common/transmitter/model.rs:12-30 *)
Record Transmitter := MkTransmitter {
  Transmitter_radio_reference_id : EntityId;
  Transmitter_radio_number : Z;
  Transmitter_radio_type : EntityType;
  Transmitter_transmit_state : Z;
  Transmitter_input_source : Z;
  Transmitter_antenna_location : Location;
  Transmitter_relative_antenna_location : VectorF32;
  Transmitter_antenna_pattern_type : Z;
  Transmitter_frequency : Z;
  Transmitter_bandwidth : Z;
  Transmitter_power : Z;
  Transmitter_modulation_type : ModulationType;
  Transmitter_crypto_system : Z;
  Transmitter_crypto_key_id : CryptoKeyId;
  Transmitter_modulation_parameters : option (list Z);
  Transmitter_antenna_pattern : option BeamAntennaPattern;
  Transmitter_vtps : list VTP }.
Definition wf_MajorModulation mm := match mm with
  | MMNoStatement => True | MMDetail k d => 1 <= k <= 8 /\ u16 d | MMUnspecified d => u16 d end.
Definition wf_ModulationType t := wf_MajorModulation (mt_major t) /\ u16 (mt_system t).
Definition wf_CryptoKeyId k := u16 (ck_key k).
Definition wf_BAP b := wf_Orientation (bap_direction b) /\ u32 (bap_azimuth b) /\ u32 (bap_elevation b) /\ u8 (bap_reference b) /\
  u32 (bap_ez b) /\ u32 (bap_ex b) /\ u32 (bap_phase b).
Definition wf_VTP v := u32 (vtp_type v) /\ bytes (vtp_fields v).
Definition wf_option {A} (P : A -> Prop) (o : option A) : Prop := match o with Some a => P a | None => True end.
Definition wf_Transmitter x :=
  wf_EntityId (Transmitter_radio_reference_id x) /\ u16 (Transmitter_radio_number x) /\ wf_EntityType (Transmitter_radio_type x) /\
  u8 (Transmitter_transmit_state x) /\ u8 (Transmitter_input_source x) /\ wf_Location (Transmitter_antenna_location x) /\
  wf_VectorF32 (Transmitter_relative_antenna_location x) /\ u16 (Transmitter_antenna_pattern_type x) /\ u64 (Transmitter_frequency x) /\
  u32 (Transmitter_bandwidth x) /\ u32 (Transmitter_power x) /\ wf_ModulationType (Transmitter_modulation_type x) /\
  u16 (Transmitter_crypto_system x) /\ wf_CryptoKeyId (Transmitter_crypto_key_id x) /\
  wf_option bytes (Transmitter_modulation_parameters x) /\ wf_option wf_BAP (Transmitter_antenna_pattern x) /\
  Forall wf_VTP (Transmitter_vtps x).

(* common/transmitter/model.rs:157-165 *)
Definition spread_from_u16 (v : Z) : SpreadSpectrum :=
  MkSpread (negb (Z.land (Z.shiftr v 15) 1 =? 0)) (negb (Z.land (Z.shiftr v 14) 1 =? 0)) (negb (Z.land (Z.shiftr v 13) 1 =? 0)).
(* common/transmitter/model.rs:167-185 *)
Definition spread_to_u16 (s : SpreadSpectrum) : Z :=
  let a := if ss_hopping s then Z.lor 0 32768 else 0 in
  let b := if ss_noise s then Z.lor a 16384 else a in
  if ss_time s then Z.lor b 8192 else b.
(* common/transmitter/model.rs:344-368; [TransmitterMajorModulation::from(u16)] is generated from SISO-REF-010 UID 155:
   0 NoStatement, 1..8 the variants with detail, anything else Unspecified *)
Definition major_from_bytes (major detail : Z) : MajorModulation :=
  if major =? 0 then MMNoStatement
  else if (1 <=? major) && (major <=? 8) then MMDetail major detail
  else MMUnspecified detail.
(* common/transmitter/model.rs:370-403 *)
Definition major_to_bytes (mm : MajorModulation) : Z * Z :=
  match mm with MMNoStatement => (0, 0) | MMDetail k d => (k, d) | MMUnspecified d => (9, d) end.
(* common/transmitter/model.rs:202-213 *)
Definition crypto_from_u16 (v : Z) : CryptoKeyId := MkCryptoKeyId (Z.shiftr v 1) (negb (Z.land v 1 =? 0)).
(* common/transmitter/writer.rs:75-85; [<< 1] on u16 loses the top bit; the [+ 1] cannot overflow *)
Definition crypto_to_u16 (k : CryptoKeyId) : Z := Z.shiftl (ck_key k) 1 mod 65536 + (if ck_diphase k then 1 else 0).

(* common/transmitter/parser.rs:85-97, 99-103 *)
Definition p_modulation_type : bparser ModulationType :=
  (s <- be_u16;; a <- be_u16;; d <- be_u16;; y <- be_u16;; pret (MkModulationType (spread_from_u16 s) (major_from_bytes a d) y))%parse.
(* common/transmitter/writer.rs:56-66, 68-73 *)
Definition w_modulation_type (t : ModulationType) : W Z :=
  (put_u16 (spread_to_u16 (mt_spread t));; put_u16 (fst (major_to_bytes (mt_major t)));; put_u16 (snd (major_to_bytes (mt_major t)));;
   put_u16 (mt_system t);; wret 8)%write.
(* common/transmitter/parser.rs:105-109 *)
Definition p_crypto_key_id : bparser CryptoKeyId := (v <- be_u16;; pret (crypto_from_u16 v))%parse.
Definition w_crypto_key_id (k : CryptoKeyId) : W Z := (put_u16 (crypto_to_u16 k);; wret 2)%write.
(* common/transmitter/parser.rs:111-132 *)
Definition p_beam_antenna_pattern : bparser BeamAntennaPattern :=
  (o <- p_orientation;; a <- be_f32;; e <- be_f32;; r <- be_u8;; _ <- be_u8;; _ <- be_u16;; ez <- be_f32;; ex <- be_f32;; ph <- be_f32;;
   _ <- be_u32;; pret (MkBAP o a e r ez ex ph))%parse.
(* common/transmitter/writer.rs:87-102 *)
Definition w_beam_antenna_pattern (b : BeamAntennaPattern) : W Z :=
  (_ <- w_orientation (bap_direction b);; put_f32 (bap_azimuth b);; put_f32 (bap_elevation b);; put_u8 (bap_reference b);;
   put_u8 0;; put_u16 0;; put_f32 (bap_ez b);; put_f32 (bap_ex b);; put_f32 (bap_phase b);; put_u32 0;; wret 40)%write.
(* common/transmitter/parser.rs:134-144; [record_length - 6] is a u16 subtraction *)
Definition p_vtp (m : mode) : bparser VTP :=
  (t <- be_u32;; n <- be_u16;; k <- parith m (n - 6);; f <- take k;; pret (MkVTP t f))%parse.
(* common/transmitter/writer.rs:104-118 *)
Definition w_vtp (v : VTP) : W Z :=
  (pl <- w_padded (6 + zlen (vtp_fields v)) 8;;
   put_u32 (vtp_type v);; put_u16 (pl_record pl mod 65536);; put_slice (vtp_fields v);; put_bytes 0 (pl_padding pl);;
   wret (pl_record pl mod 65536))%write.
(* common/transmitter/parser.rs:48-55 *)
Definition p_modulation_parameters (n : Z) : bparser (option (list Z)) :=
  if 0 <? n then (l <- take n;; pret (Some l))%parse else pret None.
Definition p_antenna_pattern (n : Z) : bparser (option BeamAntennaPattern) :=
  if 0 <? n then (l <- p_beam_antenna_pattern;; pret (Some l))%parse else pret None.
(* common/transmitter/parser.rs:10-83; [version] is the header's protocol version number *)
Definition p_transmitter_body (m : mode) (version : Z) : bparser Transmitter :=
  (i <- p_entity_id;; rn <- be_u16;; rt <- p_entity_type;; ts <- be_u8;; is <- be_u8;; nv <- be_u16;;
   al <- p_location;; ra <- p_vec3_f32;; pt <- be_u16;; pl <- be_u16;; fr <- be_u64;; bw <- be_f32;; pw <- be_f32;;
   mt <- p_modulation_type;; cs <- be_u16;; ck <- p_crypto_key_id;; nm <- be_u8;; _ <- be_u8;; _ <- be_u16;;
   mp <- p_modulation_parameters nm;; ap <- p_antenna_pattern pl;;
   vt <- count (p_vtp m) (if version =? 7 then nv else 0);;
   pret (MkTransmitter i rn rt ts is al ra pt fr bw pw mt cs ck mp ap vt))%parse.
Definition modparams_len (x : Transmitter) : Z := match Transmitter_modulation_parameters x with Some l => zlen l | None => 0 end.
Definition pattern_len (x : Transmitter) : Z := match Transmitter_antenna_pattern x with Some _ => 40 | None => 0 end.
Definition w_octet (b : Z) : W Z := (put_u8 b;; wret 1)%write.
(* common/transmitter/writer.rs:7-54 *)
Definition w_transmitter (m : mode) (x : Transmitter) : W Z :=
  (_ <- w_entity_id (Transmitter_radio_reference_id x);; put_u16 (Transmitter_radio_number x);;
   _ <- w_entity_type (Transmitter_radio_type x);; put_u8 (Transmitter_transmit_state x);; put_u8 (Transmitter_input_source x);;
   put_u16 (zlen (Transmitter_vtps x) mod 65536);; _ <- w_location (Transmitter_antenna_location x);;
   _ <- w_vector_f32 (Transmitter_relative_antenna_location x);; put_u16 (Transmitter_antenna_pattern_type x);;
   put_u16 (pattern_len x);;
   put_u64 (Transmitter_frequency x);; put_f32 (Transmitter_bandwidth x);; put_f32 (Transmitter_power x);;
   _ <- w_modulation_type (Transmitter_modulation_type x);; put_u16 (Transmitter_crypto_system x);;
   _ <- w_crypto_key_id (Transmitter_crypto_key_id x);;
   put_u8 (modparams_len x mod 256);; put_u8 0;; put_u16 0;;
   mp <- match Transmitter_modulation_parameters x with Some l => wmap_sum m w_octet l | None => wret 0 end;;
   ap <- match Transmitter_antenna_pattern x with Some b => (_ <- w_beam_antenna_pattern b;; wret 40) | None => wret 0 end;;
   vt <- wmap_sum m w_vtp (Transmitter_vtps x);;
   r1 <- add16 m 104 mp;; r2 <- add16 m r1 ap;; add16 m r2 vt)%write.
(* body_length, common/transmitter/model.rs:46-56 *)
Definition len_transmitter (m : mode) (x : Transmitter) : W Z :=
  (r1 <- add16 m 92 (modparams_len x mod 65536);; r2 <- add16 m r1 (pattern_len x);;
   v <- wmap_sum m (fun v => (pl <- w_padded (6 + zlen (vtp_fields v)) 8;; wret (pl_record pl mod 65536))%write) (Transmitter_vtps x);;
   add16 m r2 v)%write.
(** octets on the wire *)
Definition size_vtp (v : VTP) : Z := 6 + zlen (vtp_fields v) + pad_to (6 + zlen (vtp_fields v)) 8.
Definition size_transmitter (x : Transmitter) : Z := 92 + modparams_len x + pattern_len x + zsum (map size_vtp (Transmitter_vtps x)).
(** what the format, as implemented, can carry: modulation parameters are absent or 1..255 octets, the crypto key is 15 bits,
    variable transmitter parameters only under protocol version 7 and without padding *)
Definition vtp_ok (v : VTP) : Prop := (6 + zlen (vtp_fields v)) mod 8 = 0.
Definition fits_transmitter (version : Z) (x : Transmitter) : Prop :=
  size_transmitter x < 65524 /\ ck_key (Transmitter_crypto_key_id x) < 32768 /\
  wf_option (fun l => 0 < zlen l < 256) (Transmitter_modulation_parameters x) /\
  (version = 7 \/ Transmitter_vtps x = []) /\ Forall vtp_ok (Transmitter_vtps x).
(* common/transmitter/model.rs:63-71 *)
Definition orig_transmitter (x : Transmitter) : option EntityId := Some (Transmitter_radio_reference_id x).
Definition recv_transmitter (x : Transmitter) : option EntityId := None.

Lemma spread_rt s : u16 (spread_to_u16 s) /\ spread_from_u16 (spread_to_u16 s) = s.
Proof. destruct s as [[] [] []]; split; try reflexivity; unfold u16; vm_compute; intuition congruence. Qed.
Lemma major_rt mm : wf_MajorModulation mm -> u16 (fst (major_to_bytes mm)) /\ u16 (snd (major_to_bytes mm)) /\
  major_from_bytes (fst (major_to_bytes mm)) (snd (major_to_bytes mm)) = mm.
Proof.
  destruct mm as [|k d|d]; cbn [wf_MajorModulation major_to_bytes fst snd]; intros H.
  - repeat split; reflexivity || (unfold u16; lia).
  - destruct H as [Hk Hd]. repeat split; try (unfold u16 in *; lia). unfold major_from_bytes.
    destruct (Z.eqb_spec k 0); [lia|]. destruct (Z.leb_spec 1 k), (Z.leb_spec k 8); try lia. reflexivity.
  - repeat split; try (unfold u16 in *; lia).
Qed.
Lemma RT_modulation_type t : wf_ModulationType t -> RT (w_modulation_type t) p_modulation_type t 8 8.
Proof.
  destruct t as [s mm y]; unfold wf_ModulationType, w_modulation_type, p_modulation_type; cbn [mt_spread mt_major mt_system]. intros [Hm Hy].
  destruct (spread_rt s) as [S1 S2]. destruct (major_rt mm Hm) as (M1 & M2 & M3). rt. now rewrite S2, M3.
Qed.
Lemma RT_crypto_key k : wf_CryptoKeyId k -> ck_key k < 32768 -> RT (w_crypto_key_id k) p_crypto_key_id k 2 2.
Proof.
  destruct k as [k b]; unfold wf_CryptoKeyId, w_crypto_key_id, p_crypto_key_id, crypto_to_u16; cbn [ck_key ck_diphase]. unfold u16; intros H H'.
  rewrite Z.shiftl_mul_pow2 by lia. change (2 ^ 1) with 2. rewrite Z.mod_small by lia.
  eapply RT_conv; [eapply RT_bind; [apply RT_u16; unfold u16; destruct b; lia|]; cbv beta; apply RT_ret| | |]; try reflexivity.
  unfold crypto_from_u16. f_equal.
  - rewrite Z.shiftr_div_pow2 by lia. change (2 ^ 1) with 2. rewrite Z.add_comm, Z.div_add by lia. destruct b; reflexivity.
  - change 1 with (Z.ones 1) at 2. rewrite Z.land_ones by lia. change (2 ^ 1) with 2. rewrite Z.add_comm, Z.mod_add by lia. destruct b; reflexivity.
Qed.
Lemma RT_beam_antenna_pattern b : wf_BAP b -> RT (w_beam_antenna_pattern b) p_beam_antenna_pattern b 40 40.
Proof.
  destruct b; unfold wf_BAP, w_beam_antenna_pattern, p_beam_antenna_pattern;
  cbn [bap_direction bap_azimuth bap_elevation bap_reference bap_ez bap_ex bap_phase]; intros; wfd. rt.
Qed.
Lemma size_vtp_bound v : 6 <= size_vtp v.
Proof. unfold size_vtp. pose proof (zlen_nonneg (vtp_fields v)). pose proof (pad_to_bound (6 + zlen (vtp_fields v)) 8). lia. Qed.
Lemma vtp_ok_size v : vtp_ok v -> size_vtp v = 6 + zlen (vtp_fields v).
Proof. unfold vtp_ok, size_vtp. intros H. rewrite pad_to_aligned by (lia || assumption). lia. Qed.
Lemma RT_vtp m r : wf_VTP r -> vtp_ok r -> size_vtp r < 65536 -> RT (w_vtp r) (p_vtp m) r (size_vtp r) (size_vtp r).
Proof.
  intros [Ht Hb] Hok Hs. rewrite (vtp_ok_size r Hok) in *. pose proof (zlen_nonneg (vtp_fields r)).
  destruct r as [t f]; unfold vtp_ok, w_vtp, p_vtp in *; cbn [vtp_type vtp_fields] in *.
  rewrite w_padded_ok by lia. rewrite pad_to_aligned by (lia || assumption). unfold wbind at 1. cbn [pl_record pl_padding].
  rewrite Z.add_0_r, Z.mod_small by lia.
  match goal with |- RT ?w _ _ _ _ => assert (E : w = (put_u32 t;; put_u16 (6 + zlen f);; put_slice f;; wret (6 + zlen f))%write) end.
  { unfold put_u32, put_u16, put_slice, put_bytes, put, wbind, wret. cbn [Z.to_nat repeat app]. now rewrite ?app_nil_r. }
  rewrite E.
  eapply RT_conv.
  - eapply RT_bind; [apply RT_u32; assumption|]. eapply RT_bind; [apply RT_u16; range|]. cbv beta.
    replace (6 + zlen f - 6) with (zlen f) by lia. eapply RT_ppure; [intros; apply parith_ok; lia|].
    eapply RT_bind; [apply RT_slice; reflexivity|]. cbv beta. apply RT_ret.
  - reflexivity.
  - reflexivity.
  - lia.
Qed.
Lemma w_octets m l : forall acc, 0 <= acc -> acc + zlen l < 65536 -> bytes l -> wsum m w_octet l acc = WOk l (acc + zlen l).
Proof.
  induction l as [|b l IH]; intros acc H0 H Hb; cbn [wsum].
  - rewrite zlen_nil, Z.add_0_r. reflexivity.
  - rewrite zlen_cons in *. inversion Hb; subst. unfold w_octet at 1. unfold put_u8, put, wret. unfold wbind at 2.
    rewrite app_nil_r. unfold wbind at 1. pose proof (zlen_nonneg l). rewrite add16_ok by lia. unfold wbind. rewrite IH by (try lia; assumption).
    unfold be. change (8 * Z.of_nat 0) with 0. rewrite Z.shiftr_0_r || idtac. cbn [app Z.of_nat]. f_equal; [|lia].
    f_equal. rewrite ?Z.pow_0_r, ?Z.div_1_r. rewrite ?Z.mod_small by lia. reflexivity.
Qed.
Lemma vtps_bound l : 6 * zlen l <= zsum (map size_vtp l).
Proof. apply zsum_lower. intros v _. apply size_vtp_bound. Qed.
Lemma vtp_le l v : In v l -> size_vtp v <= zsum (map size_vtp l).
Proof. intros Hi. apply zsum_elt_le; [|exact Hi]. intros y _. pose proof (size_vtp_bound y). lia. Qed.
Lemma modparams_nonneg x : 0 <= modparams_len x.
Proof. unfold modparams_len. destruct (Transmitter_modulation_parameters x); [apply zlen_nonneg|lia]. Qed.
Lemma pattern_len_range x : pattern_len x = 0 \/ pattern_len x = 40.
Proof. unfold pattern_len. destruct (Transmitter_antenna_pattern x); auto. Qed.
Lemma len_transmitter_ok m x : size_transmitter x < 65524 -> len_transmitter m x = WOk [] (size_transmitter x).
Proof.
  intros Hs. unfold len_transmitter, size_transmitter in *. pose proof (modparams_nonneg x). pose proof (pattern_len_range x).
  pose proof (vtps_bound (Transmitter_vtps x)). pose proof (zlen_nonneg (Transmitter_vtps x)).
  rewrite Z.mod_small by lia. rewrite add16_ok by lia. unfold wbind at 1. rewrite add16_ok by lia. unfold wbind at 1.
  rewrite wmap_sum_pure with (len := size_vtp); [unfold wbind; rewrite add16_ok by lia; reflexivity| |lia].
  intros v Hi. pose proof (vtp_le _ _ Hi). pose proof (size_vtp_bound v). split; [|lia]. pose proof (zlen_nonneg (vtp_fields v)).
  rewrite w_padded_ok by lia. unfold wbind, wret. cbn [pl_record app]. unfold size_vtp in *. rewrite Z.mod_small by lia. reflexivity.
Qed.
Lemma RT_transmitter m version x : wf_Transmitter x -> fits_transmitter version x ->
  RT (w_transmitter m x) (p_transmitter_body m version) x (size_transmitter x + 12) (size_transmitter x).
Proof.
  intros Hw (Hs & Hk & Hmp & Hv & Hvt). pose proof (modparams_nonneg x) as Hm0. pose proof (pattern_len_range x) as Hp0.
  unfold size_transmitter, modparams_len, pattern_len in *.
  unfold w_transmitter, p_transmitter_body, modparams_len, pattern_len.
  destruct x as [i rn rt ts is al ra pt fr bw pw mt cs ck mp ap vt]; unfold wf_Transmitter in Hw;
  cbn [Transmitter_radio_reference_id Transmitter_radio_number Transmitter_radio_type Transmitter_transmit_state Transmitter_input_source
    Transmitter_antenna_location Transmitter_relative_antenna_location Transmitter_antenna_pattern_type Transmitter_frequency
    Transmitter_bandwidth Transmitter_power Transmitter_modulation_type Transmitter_crypto_system Transmitter_crypto_key_id
    Transmitter_modulation_parameters Transmitter_antenna_pattern Transmitter_vtps] in *; wfd.
  pose proof (vtps_bound vt). pose proof (zlen_nonneg vt).
  rewrite (Z.mod_small (zlen vt)) by lia.
  set (ml := match mp with Some l => zlen l | None => 0 end) in *.
  assert (Hml : 0 <= ml < 256). { unfold ml; destruct mp; cbn [wf_option] in *; lia. }
  rewrite (Z.mod_small ml) by lia.
  eapply RT_conv.
  - do 13 rt_step. eapply RT_bind; [apply RT_modulation_type; assumption|]; cbv beta. rt_step.
    eapply RT_bind; [apply RT_crypto_key; assumption|]; cbv beta. do 3 rt_step.
    eapply RT_bind with (x1 := mp) (r1 := ml) (L1 := ml).
    { unfold p_modulation_parameters. destruct (Z.ltb_spec 0 ml).
      - destruct mp as [l|]; [|unfold ml in *; lia]. cbn [wf_option] in *. exists l. split; [|split].
        + unfold wmap_sum. rewrite w_octets by (try assumption; lia). reflexivity.
        + reflexivity.
        + intros rest. unfold pbind, pret. unfold ml. rewrite take_app by reflexivity. reflexivity.
      - destruct mp as [l|]; cbn [wf_option] in *; [unfold ml in *; lia|]. unfold ml. apply RT_ret. }
    eapply RT_bind with (x1 := ap) (r1 := match ap with Some _ => 40 | None => 0 end) (L1 := match ap with Some _ => 40 | None => 0 end).
    { unfold p_antenna_pattern. destruct ap as [b|]; cbn [wf_option] in *.
      - change (0 <? 40) with true. cbv iota.
        eapply RT_conv; [eapply RT_bind; [apply RT_beam_antenna_pattern; assumption|]; cbv beta; apply RT_ret| | |]; reflexivity.
      - apply RT_ret. }
    cbv beta.
    eapply RT_bind with (x1 := vt) (r1 := zsum (map size_vtp vt)) (L1 := zsum (map size_vtp vt)).
    { apply RT_wmap_sum; [| |lia].
      - destruct Hv as [->| ->]; [reflexivity|]. destruct (version =? 7); reflexivity.
      - intros v Hi. rewrite Forall_forall in *. pose proof (vtp_le _ _ Hi). apply RT_vtp; auto. lia. }
    cbv beta. do 2 (eapply RT_wpure; [apply add16_ok; lia|]). apply RT_pure_end, add16_ok; lia.
  - reflexivity.
  - lia.
  - lia.
Qed.
Lemma Ext_modulation_type : Ext p_modulation_type. Proof. unfold p_modulation_type; ext. Qed.
Lemma Ext_crypto_key_id : Ext p_crypto_key_id. Proof. unfold p_crypto_key_id; ext. Qed.
Lemma Ext_beam_antenna_pattern : Ext p_beam_antenna_pattern. Proof. unfold p_beam_antenna_pattern; ext. Qed.
Lemma Ext_vtp m : Ext (p_vtp m). Proof. unfold p_vtp; ext. Qed.
Global Hint Resolve Ext_modulation_type Ext_crypto_key_id Ext_beam_antenna_pattern Ext_vtp : ext.
Lemma Ext_modulation_parameters n : Ext (p_modulation_parameters n). Proof. unfold p_modulation_parameters; ext. Qed.
Lemma Ext_antenna_pattern n : Ext (p_antenna_pattern n). Proof. unfold p_antenna_pattern; ext. Qed.
Global Hint Resolve Ext_modulation_parameters Ext_antenna_pattern : ext.
Lemma Ext_transmitter m v : Ext (p_transmitter_body m v). Proof. unfold p_transmitter_body; ext. Qed.
Lemma Safe_modulation_type : Safe p_modulation_type. Proof. unfold p_modulation_type; safe. Qed.
Lemma Safe_crypto_key_id : Safe p_crypto_key_id. Proof. unfold p_crypto_key_id; safe. Qed.
Lemma Safe_beam_antenna_pattern : Safe p_beam_antenna_pattern. Proof. unfold p_beam_antenna_pattern; safe. Qed.
Lemma Safe_vtp : Safe (p_vtp Wrapping).
Proof.
  unfold p_vtp. eapply Safe_bind; [apply Safe_be_u32|]; intros t _. eapply Safe_bind; [apply Safe_be_u16|]; intros n _.
  eapply Safe_bind; [apply Safe_parith|]; intros k Hk. unfold u16 in Hk. eapply Safe_bind; [apply Safe_take; lia|]; intros f _. now apply Safe_ret.
Qed.
Global Hint Resolve Safe_modulation_type Safe_crypto_key_id Safe_beam_antenna_pattern Safe_vtp : safe.
Lemma Safe_modulation_parameters n : Safe (p_modulation_parameters n).
Proof.
  unfold p_modulation_parameters. destruct (Z.ltb_spec 0 n); [|now apply Safe_ret].
  eapply Safe_bind; [apply Safe_take; lia|]; intros f _. now apply Safe_ret.
Qed.
Lemma Safe_antenna_pattern n : Safe (p_antenna_pattern n). Proof. unfold p_antenna_pattern; safe. Qed.
Global Hint Resolve Safe_modulation_parameters Safe_antenna_pattern : safe.
Lemma Safe_transmitter v : Safe (p_transmitter_body Wrapping v). Proof. unfold p_transmitter_body; safe. Qed.

(** * Is group of *)
(** The fields common to all records: entity_id, location, appearance, orientation,
    common/is_group_of/model.rs:116-120, 129-133, 143-147, 182-186, 221-225, 263-267, 301-305 *)
Record GEDBase := MkGEDBase { gb_id : Z; gb_x : Z; gb_y : Z; gb_z : Z; gb_appearance : EntityAppearance; gb_psi : Z; gb_theta : Z; gb_phi : Z }.
(** five trailing octets of GEDRecord1 and GEDRecord3, common/is_group_of/model.rs:148-152, 187-191 *)
Record GEDGround := MkGEDGround { gg_base : GEDBase; gg_speed : Z; gg_1 : Z; gg_2 : Z; gg_3 : Z; gg_4 : Z }.
(** GEDRecord7, common/is_group_of/model.rs:263-272; also the first fields of GEDRecord5 *)
Record GEDAir := MkGEDAir { ga_base : GEDBase; ga_fuel : Z; ga_horizontal : Z; ga_vertical : Z; ga_speed : Z }.
(** four octets: the tail of GEDRecord5, and the extra fields of GEDRecords 2, 4, 6, 8 *)
Record Quad := MkQuad { q_1 : Z; q_2 : Z; q_3 : Z; q_4 : Z }.
(* common/is_group_of/model.rs:84-96 *)
Inductive GroupEntityDescription :=
| GUndefined
| GVehicle (r : GEDGround) | GVehicleE (r : GEDGround) (q : Quad)
| GSoldier (r : GEDGround) | GSoldierE (r : GEDGround) (q : Quad)
| GRotor (r : GEDAir) (t : Quad) | GRotorE (r : GEDAir) (t q : Quad)
| GFixed (r : GEDAir) | GFixedE (r : GEDAir) (q : Quad)
| GLogistics (b : GEDBase) (speed : Z).
(* common/is_group_of/model.rs:17-22, 64-67 *)
Record IsGroupOf := MkIsGroupOf {
  IsGroupOf_group_id : EntityId; IsGroupOf_category : Z; IsGroupOf_latitude : Z; IsGroupOf_longitude : Z;
  IsGroupOf_descriptions : list GroupEntityDescription }.
Definition wf_GEDBase b := u16 (gb_id b) /\ u16 (gb_x b) /\ u16 (gb_y b) /\ u16 (gb_z b) /\ wf_EntityAppearance (gb_appearance b) /\
  u8 (gb_psi b) /\ u8 (gb_theta b) /\ u8 (gb_phi b).
Definition wf_GEDGround r := wf_GEDBase (gg_base r) /\ u8 (gg_speed r) /\ u8 (gg_1 r) /\ u8 (gg_2 r) /\ u8 (gg_3 r) /\ u8 (gg_4 r).
Definition wf_GEDAir r := wf_GEDBase (ga_base r) /\ u8 (ga_fuel r) /\ u8 (ga_horizontal r) /\ u8 (ga_vertical r) /\ u16 (ga_speed r).
Definition wf_Quad q := u8 (q_1 q) /\ u8 (q_2 q) /\ u8 (q_3 q) /\ u8 (q_4 q).
Definition wf_GED (g : GroupEntityDescription) : Prop := match g with
  | GUndefined => True
  | GVehicle r | GSoldier r => wf_GEDGround r
  | GVehicleE r q | GSoldierE r q => wf_GEDGround r /\ wf_Quad q
  | GRotor r t => wf_GEDAir r /\ wf_Quad t
  | GRotorE r t q => wf_GEDAir r /\ wf_Quad t /\ wf_Quad q
  | GFixed r => wf_GEDAir r
  | GFixedE r q => wf_GEDAir r /\ wf_Quad q
  | GLogistics b s => wf_GEDBase b /\ u16 s
  end.
Definition wf_IsGroupOf x := wf_EntityId (IsGroupOf_group_id x) /\ u8 (IsGroupOf_category x) /\ u64 (IsGroupOf_latitude x) /\
  u64 (IsGroupOf_longitude x) /\ Forall wf_GED (IsGroupOf_descriptions x).
(* common/is_group_of/parser.rs:70-76, 286-296, 298-308; appearance for (Platform, domain) *)
Definition p_ged_base (domain : Z) : bparser GEDBase :=
  (i <- be_u16;; x <- be_u16;; y <- be_u16;; z <- be_u16;; a <- p_entity_appearance 1 domain;;
   p <- be_u8;; t <- be_u8;; h <- be_u8;; pret (MkGEDBase i x y z a p t h))%parse.
(* common/is_group_of/writer.rs:46-54, 56-64, 67-71 *)
Definition w_ged_base (b : GEDBase) : W unit :=
  (put_u16 (gb_id b);; put_u16 (gb_x b);; put_u16 (gb_y b);; put_u16 (gb_z b);; _ <- w_entity_appearance (gb_appearance b);;
   put_u8 (gb_psi b);; put_u8 (gb_theta b);; put_u8 (gb_phi b);; wret tt)%write.
(* common/is_group_of/parser.rs:69-96, 117-144 *)
Definition p_ged_ground : bparser GEDGround :=
  (b <- p_ged_base 1;; s <- be_u8;; a1 <- be_u8;; a2 <- be_u8;; a3 <- be_u8;; a4 <- be_u8;; pret (MkGEDGround b s a1 a2 a3 a4))%parse.
(* common/is_group_of/writer.rs:66-80, 94-108 *)
Definition w_ged_ground (r : GEDGround) : W unit :=
  (_ <- w_ged_base (gg_base r);; put_u8 (gg_speed r);; put_u8 (gg_1 r);; put_u8 (gg_2 r);; put_u8 (gg_3 r);; put_u8 (gg_4 r);; wret tt)%write.
(* common/is_group_of/parser.rs:219-244 and 165-180 *)
Definition p_ged_air : bparser GEDAir :=
  (b <- p_ged_base 2;; f <- be_u8;; h <- be_u8;; v <- be_u8;; s <- be_u16;; pret (MkGEDAir b f h v s))%parse.
(* common/is_group_of/writer.rs:153-166 and 122-131 *)
Definition w_ged_air (r : GEDAir) : W unit :=
  (_ <- w_ged_base (ga_base r);; put_u8 (ga_fuel r);; put_u8 (ga_horizontal r);; put_u8 (ga_vertical r);; put_u16 (ga_speed r);; wret tt)%write.
Definition p_quad : bparser Quad := (a <- be_u8;; b <- be_u8;; c <- be_u8;; d <- be_u8;; pret (MkQuad a b c d))%parse.
Definition w_quad (q : Quad) : W unit := (put_u8 (q_1 q);; put_u8 (q_2 q);; put_u8 (q_3 q);; put_u8 (q_4 q);; wret tt)%write.
(* common/is_group_of/parser.rs:38-67 with the record parsers 69-284; category numbers from SISO-REF-010 UID 213 *)
Definition p_ged (category : Z) : bparser GroupEntityDescription :=
  match category with
  | 1 => (r <- p_ged_ground;; pret (GVehicle r))%parse
  | 2 => (r <- p_ged_ground;; q <- p_quad;; pret (GVehicleE r q))%parse
  | 3 => (r <- p_ged_ground;; pret (GSoldier r))%parse
  | 4 => (r <- p_ged_ground;; q <- p_quad;; pret (GSoldierE r q))%parse
  | 5 => (r <- p_ged_air;; t <- p_quad;; pret (GRotor r t))%parse
  | 6 => (r <- p_ged_air;; t <- p_quad;; q <- p_quad;; pret (GRotorE r t q))%parse
  | 7 => (r <- p_ged_air;; pret (GFixed r))%parse
  | 8 => (r <- p_ged_air;; q <- p_quad;; pret (GFixedE r q))%parse
  | 9 => (b <- p_ged_base 1;; s <- be_u16;; pret (GLogistics b s))%parse
  | _ => pret GUndefined
  end.
(* record_length, common/is_group_of/model.rs:98-113, 155-161, 173-178, 194-200, 212-217, 236-242, 254-259, 274-280, 292-297, 309-315 *)
Definition rl_ged (g : GroupEntityDescription) : Z := match g with
  | GUndefined => 0
  | GVehicle _ | GSoldier _ => 6 + 3 + 11
  | GVehicleE _ _ | GSoldierE _ _ => 6 + 3 + 11 + 4
  | GRotor _ _ => 6 + 3 + 15
  | GRotorE _ _ _ => 6 + 3 + 15 + 4
  | GFixed _ => 6 + 3 + 11
  | GFixedE _ _ => 6 + 3 + 11 + 4
  | GLogistics _ _ => 6 + 3 + 8
  end.
(* common/is_group_of/writer.rs:29-44 with the record writers 66-190 *)
Definition w_ged (g : GroupEntityDescription) : W Z :=
  (_ <- match g with
    | GUndefined => wret tt
    | GVehicle r | GSoldier r => w_ged_ground r
    | GVehicleE r q | GSoldierE r q => (_ <- w_ged_ground r;; w_quad q)
    | GRotor r t => (_ <- w_ged_air r;; w_quad t)
    | GRotorE r t q => (_ <- w_ged_air r;; _ <- w_quad t;; w_quad q)
    | GFixed r => w_ged_air r
    | GFixedE r q => (_ <- w_ged_air r;; w_quad q)
    | GLogistics b s => (_ <- w_ged_base b;; put_u16 s)
    end;; wret (rl_ged g))%write.
(* common/is_group_of/parser.rs:10-27, 29-36 *)
Definition p_is_group_of_body : bparser IsGroupOf :=
  (i <- p_entity_id;; c <- be_u8;; n <- be_u8;; _ <- be_u32;; la <- be_f64;; lo <- be_f64;; d <- count (p_ged c) n;;
   pret (MkIsGroupOf i c la lo d))%parse.
(* common/is_group_of/writer.rs:5-18, 20-27 (the reference point returns 8 although it writes 16 octets) *)
Definition w_is_group_of (m : mode) (x : IsGroupOf) : W Z :=
  (i <- w_entity_id (IsGroupOf_group_id x);; put_u8 (IsGroupOf_category x);; put_u8 (zlen (IsGroupOf_descriptions x) mod 256);; put_u32 0;;
   put_f64 (IsGroupOf_latitude x);; put_f64 (IsGroupOf_longitude x);;
   d <- wmap_sum m w_ged (IsGroupOf_descriptions x);; r <- add16 m (i + 8) d;; add16 m r 6)%write.
(* common/is_group_of/model.rs:39-45 *)
Definition len_is_group_of (m : mode) (x : IsGroupOf) : W Z :=
  (n <- wmap_sum m (fun g => wret (rl_ged g)) (IsGroupOf_descriptions x);; add16 m 28 n)%write.
(** octets on the wire *)
Definition size_ged (g : GroupEntityDescription) : Z := match g with
  | GUndefined => 0 | GVehicle _ | GSoldier _ | GFixed _ => 20 | GVehicleE _ _ | GSoldierE _ _ | GFixedE _ _ | GRotor _ _ => 24
  | GRotorE _ _ _ => 28 | GLogistics _ _ => 17 end.
Definition size_is_group_of (x : IsGroupOf) : Z := 28 + zsum (map size_ged (IsGroupOf_descriptions x)).
(** each record has the variant selected by the category and an appearance of the domain that variant implies *)
Definition ged_ok (category : Z) (g : GroupEntityDescription) : Prop :=
  match g with
  | GUndefined => ~ 1 <= category <= 9
  | GVehicle r => category = 1 /\ ea_kind (gb_appearance (gg_base r)) = ALand
  | GVehicleE r _ => category = 2 /\ ea_kind (gb_appearance (gg_base r)) = ALand
  | GSoldier r => category = 3 /\ ea_kind (gb_appearance (gg_base r)) = ALand
  | GSoldierE r _ => category = 4 /\ ea_kind (gb_appearance (gg_base r)) = ALand
  | GRotor r _ => category = 5 /\ ea_kind (gb_appearance (ga_base r)) = AAir
  | GRotorE r _ _ => category = 6 /\ ea_kind (gb_appearance (ga_base r)) = AAir
  | GFixed r => category = 7 /\ ea_kind (gb_appearance (ga_base r)) = AAir
  | GFixedE r _ => category = 8 /\ ea_kind (gb_appearance (ga_base r)) = AAir
  | GLogistics b _ => category = 9 /\ ea_kind (gb_appearance b) = ALand
  end.
Definition fits_is_group_of (x : IsGroupOf) : Prop :=
  zlen (IsGroupOf_descriptions x) < 256 /\ Forall (ged_ok (IsGroupOf_category x)) (IsGroupOf_descriptions x).
(* common/is_group_of/model.rs:52-60 *)
Definition orig_is_group_of (x : IsGroupOf) : option EntityId := Some (IsGroupOf_group_id x).
Definition recv_is_group_of (x : IsGroupOf) : option EntityId := None.

Lemma RT_ged_base d b : wf_GEDBase b -> ea_kind (gb_appearance b) = appearance_kind 1 d -> RT (w_ged_base b) (p_ged_base d) b tt 15.
Proof.
  destruct b; unfold wf_GEDBase, w_ged_base, p_ged_base; cbn [gb_id gb_x gb_y gb_z gb_appearance gb_psi gb_theta gb_phi]; intros; wfd.
  eapply RT_conv; [repeat first [eapply RT_bind; [apply RT_entity_appearance; assumption|]; cbv beta | rt_step]| | |]; reflexivity.
Qed.
Lemma RT_ged_ground r : wf_GEDGround r -> ea_kind (gb_appearance (gg_base r)) = ALand -> RT (w_ged_ground r) p_ged_ground r tt 20.
Proof.
  destruct r; unfold wf_GEDGround, w_ged_ground, p_ged_ground; cbn [gg_base gg_speed gg_1 gg_2 gg_3 gg_4]; intros; wfd.
  eapply RT_conv; [repeat first [eapply RT_bind; [apply RT_ged_base; assumption|]; cbv beta | rt_step]| | |]; reflexivity.
Qed.
Lemma RT_ged_air r : wf_GEDAir r -> ea_kind (gb_appearance (ga_base r)) = AAir -> RT (w_ged_air r) p_ged_air r tt 20.
Proof.
  destruct r; unfold wf_GEDAir, w_ged_air, p_ged_air; cbn [ga_base ga_fuel ga_horizontal ga_vertical ga_speed]; intros; wfd.
  eapply RT_conv; [repeat first [eapply RT_bind; [apply RT_ged_base; assumption|]; cbv beta | rt_step]| | |]; reflexivity.
Qed.
Lemma RT_quad q : wf_Quad q -> RT (w_quad q) p_quad q tt 4.
Proof. destruct q; unfold wf_Quad, w_quad, p_quad; cbn [q_1 q_2 q_3 q_4]; intros; wfd. rt. Qed.
Lemma RT_ged c g : wf_GED g -> ged_ok c g -> RT (w_ged g) (p_ged c) g (size_ged g) (size_ged g).
Proof.
  intros Hw Hok. unfold w_ged.
  assert (E : rl_ged g = size_ged g) by (destruct g; reflexivity). rewrite E.
  destruct g; cbn [ged_ok wf_GED size_ged] in *; wfd; subst; cbn [p_ged];
  rewrite ?wbind_assoc;
  try (eapply RT_conv; [repeat first
    [ eapply RT_bind; [first [apply RT_ged_ground; assumption | apply RT_ged_air; assumption | apply RT_quad; assumption
                       | apply (RT_ged_base 1); assumption | apply RT_u16; assumption]|]; cbv beta; rewrite ?wbind_assoc
    | apply RT_ret]| | |]; reflexivity).
  unfold wbind, wret. cbn [app].
  eapply RT_pext with (q := pret GUndefined); [|apply (RT_ret 0)].
  intros i. unfold p_ged. destruct c as [|p|p]; try reflexivity.
  repeat (match goal with |- context [match ?v with _ => _ end] => destruct v end; try reflexivity); exfalso; lia.
Qed.
Lemma size_ged_range g : 0 <= size_ged g <= 28. Proof. destruct g; cbn [size_ged]; lia. Qed.
Lemma geds_range l : 0 <= zsum (map size_ged l) <= 28 * zlen l.
Proof.
  induction l as [|g l IH]; cbn [map zsum]; [unfold zlen; cbn; lia|]. rewrite zlen_cons. pose proof (size_ged_range g). lia.
Qed.
Lemma len_is_group_of_ok m x : fits_is_group_of x -> len_is_group_of m x = WOk [] (size_is_group_of x).
Proof.
  intros (Hn & _). unfold len_is_group_of, size_is_group_of. pose proof (geds_range (IsGroupOf_descriptions x)).
  rewrite wmap_sum_pure with (len := size_ged); [unfold wbind; rewrite add16_ok by lia; cbn [app]; f_equal; lia| |lia].
  intros g _. split; [destruct g; reflexivity|apply size_ged_range].
Qed.
Lemma RT_is_group_of m x : wf_IsGroupOf x -> fits_is_group_of x ->
  RT (w_is_group_of m x) p_is_group_of_body x (size_is_group_of x - 8) (size_is_group_of x).
Proof.
  intros Hw (Hn & Hok). unfold size_is_group_of, w_is_group_of, p_is_group_of_body.
  destruct x as [i c la lo l]; unfold wf_IsGroupOf in Hw;
  cbn [IsGroupOf_group_id IsGroupOf_category IsGroupOf_latitude IsGroupOf_longitude IsGroupOf_descriptions] in *; wfd.
  pose proof (geds_range l). pose proof (zlen_nonneg l). rewrite Z.mod_small by lia.
  eapply RT_conv.
  - do 6 rt_step. eapply RT_bind; [apply RT_wmap_sum with (len := size_ged); [reflexivity| |lia]|]; cbv beta.
    { intros g Hi. rewrite Forall_forall in *. apply RT_ged; auto. }
    rt_step. apply RT_pure_end, add16_ok; lia.
  - reflexivity.
  - lia.
  - lia.
Qed.
Lemma Ext_ged_base d : Ext (p_ged_base d). Proof. unfold p_ged_base; ext. Qed.
Global Hint Resolve Ext_ged_base : ext.
Lemma Ext_ged_ground : Ext p_ged_ground. Proof. unfold p_ged_ground; ext. Qed.
Lemma Ext_ged_air : Ext p_ged_air. Proof. unfold p_ged_air; ext. Qed.
Lemma Ext_quad : Ext p_quad. Proof. unfold p_quad; ext. Qed.
Global Hint Resolve Ext_ged_ground Ext_ged_air Ext_quad : ext.
Lemma Ext_ged c : Ext (p_ged c). Proof. unfold p_ged; ext. Qed.
Global Hint Resolve Ext_ged : ext.
Lemma Ext_is_group_of : Ext p_is_group_of_body. Proof. unfold p_is_group_of_body; ext. Qed.
Lemma Safe_ged_base d : Safe (p_ged_base d). Proof. unfold p_ged_base; safe. Qed.
Global Hint Resolve Safe_ged_base : safe.
Lemma Safe_ged_ground : Safe p_ged_ground. Proof. unfold p_ged_ground; safe. Qed.
Lemma Safe_ged_air : Safe p_ged_air. Proof. unfold p_ged_air; safe. Qed.
Lemma Safe_quad : Safe p_quad. Proof. unfold p_quad; safe. Qed.
Global Hint Resolve Safe_ged_ground Safe_ged_air Safe_quad : safe.
Lemma Safe_ged c : Safe (p_ged c). Proof. unfold p_ged; safe. Qed.
Global Hint Resolve Safe_ged : safe.
Lemma Safe_is_group_of : Safe p_is_group_of_body. Proof. unfold p_is_group_of_body; safe. Qed.

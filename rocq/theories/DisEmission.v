(** UnderwaterAcoustic and ElectromagneticEmission PDU bodies:
    model, parser, writer, body length.
    Sources: /repo/dis-rs/src/common/{underwater_acoustic,electromagnetic_emission}/{model,parser,writer}.rs.
    Conventions as in DisCommon. *)
From Verif Require Import Base DisCommon DisLists DisWarfare DisEntity.

(** * Underwater acoustic *)
(* common/underwater_acoustic/model.rs:63-66 (a bool is modelled as bool) *)
Record PropulsionPlant := MkPropulsionPlant { pp_configuration : Z; pp_masker : bool }.
(* common/underwater_acoustic/model.rs:88-92 *)
Record Shaft := MkShaft { sh_current : Z; sh_ordered : Z; sh_rate : Z }.
(* common/underwater_acoustic/model.rs:119-123 *)
Record APA := MkAPA { apa_parameter : Z; apa_status : Z; apa_value : Z }.
(* common/underwater_acoustic/model.rs:242-249 *)
Record UAFundamental := MkUAFundamental {
  uaf_index : Z; uaf_scan : Z; uaf_azc : Z; uaf_azw : Z; uaf_dec : Z; uaf_dew : Z }.
(* common/underwater_acoustic/model.rs:213-217 *)
Record UABeam := MkUABeam { uab_length : Z; uab_id : Z; uab_data : UAFundamental }.
(* common/underwater_acoustic/model.rs:182-186 *)
Record AcousticEmitterSystem := MkAES { aes_name : Z; aes_function : Z; aes_id : Z }.
(* common/underwater_acoustic/model.rs:147-151 *)
Record UAEmitterSystem := MkUASystem { uas_system : AcousticEmitterSystem; uas_location : VectorF32; uas_beams : list UABeam }.
(* common/underwater_acoustic/model.rs:13-22 *)
Record UnderwaterAcoustic := MkUA {
  UA_emitting_entity_id : EntityId;
  UA_event_id : EventId;
  UA_state_change : Z;
  UA_passive_index : Z;
  UA_propulsion : PropulsionPlant;
  UA_shafts : list Shaft;
  UA_apas : list APA;
  UA_systems : list UAEmitterSystem }.
Definition wf_PropulsionPlant p := u8 (pp_configuration p).
Definition wf_Shaft s := i16 (sh_current s) /\ i16 (sh_ordered s) /\ i32 (sh_rate s).
Definition wf_APA a := u16 (apa_parameter a) /\ u8 (apa_status a) /\ i16 (apa_value a).
Definition wf_UAFundamental f := u16 (uaf_index f) /\ u16 (uaf_scan f) /\ u32 (uaf_azc f) /\ u32 (uaf_azw f) /\ u32 (uaf_dec f) /\ u32 (uaf_dew f).
Definition wf_UABeam b := u8 (uab_length b) /\ u8 (uab_id b) /\ wf_UAFundamental (uab_data b).
Definition wf_AES a := u16 (aes_name a) /\ u8 (aes_function a) /\ u8 (aes_id a).
Definition wf_UASystem s := wf_AES (uas_system s) /\ wf_VectorF32 (uas_location s) /\ Forall wf_UABeam (uas_beams s).
Definition wf_UA x := wf_EntityId (UA_emitting_entity_id x) /\ wf_EventId (UA_event_id x) /\ u8 (UA_state_change x) /\
  u16 (UA_passive_index x) /\ wf_PropulsionPlant (UA_propulsion x) /\ Forall wf_Shaft (UA_shafts x) /\
  Forall wf_APA (UA_apas x) /\ Forall wf_UASystem (UA_systems x).

(* common/underwater_acoustic/parser.rs:41-50 *)
Definition p_propulsion_plant : bparser PropulsionPlant :=
  (f <- be_u8;; pret (MkPropulsionPlant (Z.shiftr f 1) (negb (Z.land f 1 =? 0))))%parse.
(* common/underwater_acoustic/writer.rs:35-44; [configuration << 1] is a u8 shift, the top bit is lost *)
Definition w_propulsion_plant (p : PropulsionPlant) : W Z :=
  (put_u8 (Z.lor (Z.shiftl (pp_configuration p) 1 mod 256) (if pp_masker p then 1 else 0));; wret 1)%write.
(* common/underwater_acoustic/parser.rs:52-61 *)
Definition p_shaft : bparser Shaft := (a <- be_i16;; b <- be_i16;; c <- be_i32;; pret (MkShaft a b c))%parse.
(* common/underwater_acoustic/writer.rs:46-54 *)
Definition w_shaft (s : Shaft) : W Z :=
  (put_i16 (sh_current s);; put_i16 (sh_ordered s);; put_i32 (sh_rate s);; wret 8)%write.
(* common/underwater_acoustic/parser.rs:63-76 *)
Definition p_apa : bparser APA :=
  (w <- be_u16;; v <- be_i16;; pret (MkAPA (Z.shiftr w 2) (Z.land w 3) v))%parse.
(* common/underwater_acoustic/writer.rs:56-66; combines parameter and status with [&] *)
Definition w_apa (a : APA) : W Z :=
  (put_u16 (Z.land (Z.shiftl (apa_parameter a) 2 mod 65536) (apa_status a));; put_i16 (apa_value a);; wret 4)%write.
(* common/underwater_acoustic/parser.rs:117-134 *)
Definition p_ua_fundamental : bparser UAFundamental :=
  (a <- be_u16;; b <- be_u16;; c <- be_f32;; d <- be_f32;; e <- be_f32;; f <- be_f32;; pret (MkUAFundamental a b c d e f))%parse.
(* common/underwater_acoustic/writer.rs:103-114 *)
Definition w_ua_fundamental (f : UAFundamental) : W Z :=
  (put_u16 (uaf_index f);; put_u16 (uaf_scan f);; put_f32 (uaf_azc f);; put_f32 (uaf_azw f);;
   put_f32 (uaf_dec f);; put_f32 (uaf_dew f);; wret 20)%write.
(* common/underwater_acoustic/parser.rs:105-115 *)
Definition p_ua_beam : bparser UABeam :=
  (l <- be_u8;; i <- be_u8;; _ <- be_u16;; f <- p_ua_fundamental;; pret (MkUABeam l i f))%parse.
(* common/underwater_acoustic/writer.rs:92-101 *)
Definition w_ua_beam (b : UABeam) : W Z :=
  (put_u8 (uab_length b);; put_u8 (uab_id b);; put_u16 0;; _ <- w_ua_fundamental (uab_data b);; wret 24)%write.
(* common/underwater_acoustic/parser.rs:92-103 *)
Definition p_aes : bparser AcousticEmitterSystem := (a <- be_u16;; b <- be_u8;; c <- be_u8;; pret (MkAES a b c))%parse.
(* common/underwater_acoustic/writer.rs:82-90 *)
Definition w_aes (a : AcousticEmitterSystem) : W Z :=
  (put_u16 (aes_name a);; put_u8 (aes_function a);; put_u8 (aes_id a);; wret 4)%write.
(* common/underwater_acoustic/parser.rs:78-90 *)
Definition p_ua_system : bparser UAEmitterSystem :=
  (_ <- be_u8;; n <- be_u8;; _ <- be_u16;; s <- p_aes;; l <- p_vec3_f32;; b <- count p_ua_beam n;; pret (MkUASystem s l b))%parse.
(* record_length, common/underwater_acoustic/model.rs:153-178 *)
Definition rl_ua_system (m : mode) (s : UAEmitterSystem) : W Z :=
  (n <- wmap_sum m (fun _ => wret 24) (uas_beams s);; add16 m 20 n)%write.
(* common/underwater_acoustic/writer.rs:68-80 *)
Definition w_ua_system (m : mode) (s : UAEmitterSystem) : W Z :=
  (rl <- rl_ua_system m s;; put_u8 (rl mod 256);; put_u8 (zlen (uas_beams s) mod 256);; put_u16 0;;
   _ <- w_aes (uas_system s);; _ <- w_vector_f32 (uas_location s);; _ <- wmap_sum m w_ua_beam (uas_beams s);;
   rl_ua_system m s)%write.
(* common/underwater_acoustic/parser.rs:10-39 *)
Definition p_underwater_acoustic_body : bparser UnderwaterAcoustic :=
  (i <- p_entity_id;; e <- p_event_id;; sc <- be_u8;; _ <- be_u8;; pi <- be_u16;; pp <- p_propulsion_plant;;
   ns <- be_u8;; na <- be_u8;; ne <- be_u8;;
   sh <- count p_shaft ns;; ap <- count p_apa na;; sy <- count p_ua_system ne;;
   pret (MkUA i e sc pi pp sh ap sy))%parse.
(* body_length, common/underwater_acoustic/model.rs:38-49 *)
Definition len_underwater_acoustic (m : mode) (x : UnderwaterAcoustic) : W Z :=
  (a <- wmap_sum m (fun _ => wret 8) (UA_shafts x);; r1 <- add16 m 20 a;;
   b <- wmap_sum m (fun _ => wret 4) (UA_apas x);; r2 <- add16 m r1 b;;
   c <- wmap_sum m (rl_ua_system m) (UA_systems x);; add16 m r2 c)%write.
(* common/underwater_acoustic/writer.rs:6-33 *)
Definition w_underwater_acoustic (m : mode) (x : UnderwaterAcoustic) : W Z :=
  (_ <- w_entity_id (UA_emitting_entity_id x);; _ <- w_event_id (UA_event_id x);;
   put_u8 (UA_state_change x);; put_u8 0;; put_u16 (UA_passive_index x);; _ <- w_propulsion_plant (UA_propulsion x);;
   put_u8 (zlen (UA_shafts x) mod 256);; put_u8 (zlen (UA_apas x) mod 256);; put_u8 (zlen (UA_systems x) mod 256);;
   _ <- wmap_sum m w_shaft (UA_shafts x);; _ <- wmap_sum m w_apa (UA_apas x);; _ <- wmap_sum m (w_ua_system m) (UA_systems x);;
   len_underwater_acoustic m x)%write.
(** number of octets the body occupies on the wire *)
Definition size_ua_system (s : UAEmitterSystem) : Z := 20 + 24 * zlen (uas_beams s).
Definition size_underwater_acoustic (x : UnderwaterAcoustic) : Z :=
  20 + 8 * zlen (UA_shafts x) + 4 * zlen (UA_apas x) + zsum (map size_ua_system (UA_systems x)).
(** what the wire format (as implemented) can carry: counts of at most 255, a 7-bit configuration,
    and - because of the [&] above - only the APA parameter/status 0 *)
Definition apa_ok (a : APA) : Prop := apa_parameter a = 0 /\ apa_status a = 0.
Definition fits_underwater_acoustic (x : UnderwaterAcoustic) : Prop :=
  size_underwater_acoustic x < 65524 /\ pp_configuration (UA_propulsion x) < 128 /\
  zlen (UA_shafts x) < 256 /\ zlen (UA_apas x) < 256 /\ zlen (UA_systems x) < 256 /\
  Forall (fun s => zlen (uas_beams s) < 256) (UA_systems x) /\ Forall apa_ok (UA_apas x).
(* common/underwater_acoustic/model.rs:51-59 *)
Definition orig_underwater_acoustic (x : UnderwaterAcoustic) : option EntityId := Some (UA_emitting_entity_id x).
Definition recv_underwater_acoustic (x : UnderwaterAcoustic) : option EntityId := None.

Lemma RT_propulsion p : wf_PropulsionPlant p -> pp_configuration p < 128 -> RT (w_propulsion_plant p) p_propulsion_plant p 1 1.
Proof.
  destruct p as [c k]; unfold wf_PropulsionPlant, w_propulsion_plant, p_propulsion_plant; cbn [pp_configuration pp_masker]; intros Hc Hlt.
  unfold u8 in Hc.
  assert (E : Z.lor (Z.shiftl c 1 mod 256) (if k then 1 else 0) = 2 * c + (if k then 1 else 0)).
  { rewrite Z.shiftl_mul_pow2 by lia. change (2 ^ 1) with 2. rewrite Z.mod_small by lia.
    replace (c * 2) with (2 * c) by lia. destruct k.
    - destruct c; try reflexivity; lia.
    - rewrite Z.lor_0_r. lia. }
  rewrite E.
  eapply RT_conv; [eapply RT_bind; [apply RT_u8; destruct k; range|]; cbv beta; apply RT_ret| | |]; try reflexivity.
  f_equal.
  - rewrite Z.shiftr_div_pow2 by lia. change (2 ^ 1) with 2. destruct k; [|rewrite Z.add_0_r, Z.mul_comm; apply Z.div_mul; lia].
    rewrite Z.add_comm, Z.mul_comm, Z.div_add by lia. reflexivity.
  - change 1 with (Z.ones 1) at 2. rewrite Z.land_ones by lia. change (2 ^ 1) with 2.
    destruct k; rewrite Z.add_comm, Z.mul_comm, Z.mod_add by lia; reflexivity.
Qed.
Lemma RT_shaft s : wf_Shaft s -> RT (w_shaft s) p_shaft s 8 8.
Proof. destruct s; unfold wf_Shaft, w_shaft, p_shaft; cbn [sh_current sh_ordered sh_rate]; intros; wfd. rt. Qed.
Lemma RT_apa a : wf_APA a /\ apa_ok a -> RT (w_apa a) p_apa a 4 4.
Proof.
  destruct a; unfold wf_APA, apa_ok, w_apa, p_apa; cbn [apa_parameter apa_status apa_value]; intros; wfd. subst.
  change (Z.land (Z.shiftl 0 2 mod 65536) 0) with 0. rt.
Qed.
Lemma RT_ua_fundamental f : wf_UAFundamental f -> RT (w_ua_fundamental f) p_ua_fundamental f 20 20.
Proof. destruct f; unfold wf_UAFundamental, w_ua_fundamental, p_ua_fundamental; cbn [uaf_index uaf_scan uaf_azc uaf_azw uaf_dec uaf_dew]; intros; wfd. rt. Qed.
Global Hint Resolve RT_shaft RT_ua_fundamental : rt.
Lemma RT_ua_beam b : wf_UABeam b -> RT (w_ua_beam b) p_ua_beam b 24 24.
Proof. destruct b; unfold wf_UABeam, w_ua_beam, p_ua_beam; cbn [uab_length uab_id uab_data]; intros; wfd. rt. Qed.
Lemma RT_aes b : wf_AES b -> RT (w_aes b) p_aes b 4 4.
Proof. destruct b; unfold wf_AES, w_aes, p_aes; cbn [aes_name aes_function aes_id]; intros; wfd. rt. Qed.
Global Hint Resolve RT_ua_beam RT_aes : rt.
Lemma rl_ua_system_ok m s : size_ua_system s < 65536 -> rl_ua_system m s = WOk [] (size_ua_system s).
Proof.
  intros H. unfold rl_ua_system, size_ua_system in *. pose proof (zlen_nonneg (uas_beams s)).
  rewrite wmap_const_pure by lia. unfold wbind. rewrite add16_ok by lia. reflexivity.
Qed.
Lemma RT_ua_system m s : wf_UASystem s -> size_ua_system s < 65536 -> zlen (uas_beams s) < 256 ->
  RT (w_ua_system m s) p_ua_system s (size_ua_system s) (size_ua_system s).
Proof.
  intros Hw Hs Hn. unfold w_ua_system, p_ua_system. rewrite (rl_ua_system_ok m s Hs).
  unfold size_ua_system in *. destruct s as [a l b]; unfold wf_UASystem in Hw; cbn [uas_system uas_location uas_beams] in *; wfd.
  pose proof (zlen_nonneg b). eapply RT_wpure; [reflexivity|]. rewrite (Z.mod_small (zlen b)) by lia.
  pose proof (Z.mod_pos_bound (20 + 24 * zlen b) 256 ltac:(lia)).
  eapply RT_conv.
  - do 5 rt_step. eapply RT_bind; [apply (RT_const_list m _ _ _ 24 _ _ RT_ua_beam); side|]; cbv beta.
    apply RT_pure_end; reflexivity.
  - reflexivity.
  - reflexivity.
  - lia.
Qed.
Lemma ua_systems_bound l : 20 * zlen l <= zsum (map size_ua_system l).
Proof. apply zsum_lower. intros s _. unfold size_ua_system. pose proof (zlen_nonneg (uas_beams s)). lia. Qed.
Lemma ua_system_le l s : In s l -> size_ua_system s <= zsum (map size_ua_system l).
Proof. intros Hi. apply zsum_elt_le; [|exact Hi]. intros y _. unfold size_ua_system. pose proof (zlen_nonneg (uas_beams y)). lia. Qed.
Lemma len_underwater_acoustic_ok m x : fits_underwater_acoustic x -> len_underwater_acoustic m x = WOk [] (size_underwater_acoustic x).
Proof.
  intros (Hs & _). unfold len_underwater_acoustic, size_underwater_acoustic in *.
  pose proof (zlen_nonneg (UA_shafts x)). pose proof (zlen_nonneg (UA_apas x)). pose proof (zlen_nonneg (UA_systems x)).
  pose proof (ua_systems_bound (UA_systems x)).
  rewrite wmap_const_pure by lia. unfold wbind at 1. rewrite add16_ok by lia. unfold wbind at 1.
  rewrite wmap_const_pure by lia. unfold wbind at 1. rewrite add16_ok by lia. unfold wbind at 1.
  rewrite wmap_sum_pure with (len := size_ua_system); [|intros s Hi; pose proof (ua_system_le _ _ Hi); split; [apply rl_ua_system_ok; lia|unfold size_ua_system; pose proof (zlen_nonneg (uas_beams s)); lia]|lia].
  unfold wbind. rewrite add16_ok by lia. reflexivity.
Qed.
Lemma RT_underwater_acoustic m x : wf_UA x -> fits_underwater_acoustic x ->
  RT (w_underwater_acoustic m x) p_underwater_acoustic_body x (size_underwater_acoustic x) (size_underwater_acoustic x).
Proof.
  intros Hw Hf. pose proof (len_underwater_acoustic_ok m x Hf) as Hlen. unfold w_underwater_acoustic, p_underwater_acoustic_body. rewrite Hlen.
  unfold fits_underwater_acoustic, size_underwater_acoustic in *. clear Hlen.
  destruct x as [i e sc pi pp sh ap sy]; unfold wf_UA in Hw;
  cbn [UA_emitting_entity_id UA_event_id UA_state_change UA_passive_index UA_propulsion UA_shafts UA_apas UA_systems] in *; wfd.
  pose proof (ua_systems_bound sy). pdu_facts. rewrite !Z.mod_small by lia.
  eapply RT_conv.
  - do 5 rt_step. eapply RT_bind; [apply RT_propulsion; assumption|]; cbv beta. do 3 rt_step.
    eapply RT_bind; [apply (RT_const_list m _ _ _ 8 _ _ RT_shaft); side|]; cbv beta.
    eapply RT_bind; [apply (RT_const_list m _ _ _ 4 _ _ RT_apa); try side|]; cbv beta.
    { rewrite Forall_forall in *; auto. }
    eapply RT_bind; [apply RT_wmap_sum with (len := size_ua_system); [reflexivity| |lia]|]; cbv beta.
    { intros s Hi. pose proof (ua_system_le _ _ Hi). rewrite Forall_forall in *. apply RT_ua_system; auto. lia. }
    apply RT_pure_end; reflexivity.
  - reflexivity.
  - reflexivity.
  - lia.
Qed.
Lemma Ext_propulsion : Ext p_propulsion_plant. Proof. unfold p_propulsion_plant; ext. Qed.
Lemma Ext_shaft : Ext p_shaft. Proof. unfold p_shaft; ext. Qed.
Lemma Ext_apa : Ext p_apa. Proof. unfold p_apa; ext. Qed.
Lemma Ext_ua_fundamental : Ext p_ua_fundamental. Proof. unfold p_ua_fundamental; ext. Qed.
Lemma Ext_aes : Ext p_aes. Proof. unfold p_aes; ext. Qed.
Global Hint Resolve Ext_propulsion Ext_shaft Ext_apa Ext_ua_fundamental Ext_aes : ext.
Lemma Ext_ua_beam : Ext p_ua_beam. Proof. unfold p_ua_beam; ext. Qed.
Global Hint Resolve Ext_ua_beam : ext.
Lemma Ext_ua_system : Ext p_ua_system. Proof. unfold p_ua_system; ext. Qed.
Global Hint Resolve Ext_ua_system : ext.
Lemma Ext_underwater_acoustic : Ext p_underwater_acoustic_body. Proof. unfold p_underwater_acoustic_body; ext. Qed.
Lemma Safe_propulsion : Safe p_propulsion_plant. Proof. unfold p_propulsion_plant; safe. Qed.
Lemma Safe_shaft : Safe p_shaft. Proof. unfold p_shaft; safe. Qed.
Lemma Safe_apa : Safe p_apa. Proof. unfold p_apa; safe. Qed.
Lemma Safe_ua_fundamental : Safe p_ua_fundamental. Proof. unfold p_ua_fundamental; safe. Qed.
Lemma Safe_aes : Safe p_aes. Proof. unfold p_aes; safe. Qed.
Global Hint Resolve Safe_propulsion Safe_shaft Safe_apa Safe_ua_fundamental Safe_aes : safe.
Lemma Safe_ua_beam : Safe p_ua_beam. Proof. unfold p_ua_beam; safe. Qed.
Global Hint Resolve Safe_ua_beam : safe.
Lemma Safe_ua_system : Safe p_ua_system. Proof. unfold p_ua_system; safe. Qed.
Global Hint Resolve Safe_ua_system : safe.
Lemma Safe_underwater_acoustic : Safe p_underwater_acoustic_body. Proof. unfold p_underwater_acoustic_body; safe. Qed.

(** * Electromagnetic emission *)
(* common/electromagnetic_emission/model.rs:303-307 *)
Record TrackJam := MkTrackJam { tj_entity : EntityId; tj_emitter : Z; tj_beam : Z }.
(* common/electromagnetic_emission/model.rs:263-268 *)
Record JammingTechnique := MkJamming { jt_kind : Z; jt_category : Z; jt_subcategory : Z; jt_specific : Z }.
(* common/electromagnetic_emission/model.rs:216-222 *)
Record FundamentalParameterData := MkFPD { fp_frequency : Z; fp_range : Z; fp_power : Z; fp_prf : Z; fp_width : Z }.
(* common/electromagnetic_emission/model.rs:132-142 *)
Record Beam := MkBeam {
  be_number : Z; be_index : Z; be_parameters : FundamentalParameterData; be_data : BeamData; be_function : Z;
  be_high_density : Z; be_status : Z; be_technique : JammingTechnique; be_tracks : list TrackJam }.
(* common/electromagnetic_emission/model.rs:68-74 *)
Record EmitterSystem := MkEmitterSystem { es_name : Z; es_function : Z; es_number : Z; es_location : VectorF32; es_beams : list Beam }.
(* common/electromagnetic_emission/model.rs:15-20 *)
Record ElectromagneticEmission := MkEE {
  EE_emitting_entity_id : EntityId; EE_event_id : EventId; EE_state_update : Z; EE_systems : list EmitterSystem }.
Definition wf_TrackJam t := wf_EntityId (tj_entity t) /\ u8 (tj_emitter t) /\ u8 (tj_beam t).
Definition wf_Jamming j := u8 (jt_kind j) /\ u8 (jt_category j) /\ u8 (jt_subcategory j) /\ u8 (jt_specific j).
Definition wf_FPD f := u32 (fp_frequency f) /\ u32 (fp_range f) /\ u32 (fp_power f) /\ u32 (fp_prf f) /\ u32 (fp_width f).
Definition wf_Beam b := u8 (be_number b) /\ u16 (be_index b) /\ wf_FPD (be_parameters b) /\ wf_BeamData (be_data b) /\
  u8 (be_function b) /\ u8 (be_high_density b) /\ u8 (be_status b) /\ wf_Jamming (be_technique b) /\ Forall wf_TrackJam (be_tracks b).
Definition wf_EmitterSystem s := u16 (es_name s) /\ u8 (es_function s) /\ u8 (es_number s) /\ wf_VectorF32 (es_location s) /\ Forall wf_Beam (es_beams s).
Definition wf_EE x := wf_EntityId (EE_emitting_entity_id x) /\ wf_EventId (EE_event_id x) /\ u8 (EE_state_update x) /\ Forall wf_EmitterSystem (EE_systems x).

(* common/electromagnetic_emission/parser.rs:111-122 *)
Definition p_track_jam : bparser TrackJam := (i <- p_entity_id;; e <- be_u8;; b <- be_u8;; pret (MkTrackJam i e b))%parse.
(* common/electromagnetic_emission/writer.rs:84-92 *)
Definition w_track_jam (t : TrackJam) : W Z :=
  (i <- w_entity_id (tj_entity t);; put_u8 (tj_emitter t);; put_u8 (tj_beam t);; wret (i + 2))%write.
(* common/electromagnetic_emission/parser.rs:96-109 *)
Definition p_jamming : bparser JammingTechnique :=
  (a <- be_u8;; b <- be_u8;; c <- be_u8;; d <- be_u8;; pret (MkJamming a b c d))%parse.
(* common/electromagnetic_emission/writer.rs:73-82 *)
Definition w_jamming (j : JammingTechnique) : W Z :=
  (put_u8 (jt_kind j);; put_u8 (jt_category j);; put_u8 (jt_subcategory j);; put_u8 (jt_specific j);; wret 4)%write.
(* common/electromagnetic_emission/parser.rs:79-94 *)
Definition p_fpd : bparser FundamentalParameterData :=
  (a <- be_f32;; b <- be_f32;; c <- be_f32;; d <- be_f32;; e <- be_f32;; pret (MkFPD a b c d e))%parse.
(* common/electromagnetic_emission/writer.rs:61-71 *)
Definition w_fpd (f : FundamentalParameterData) : W Z :=
  (put_f32 (fp_frequency f);; put_f32 (fp_range f);; put_f32 (fp_power f);; put_f32 (fp_prf f);; put_f32 (fp_width f);; wret 20)%write.
(* beam_data_length_bytes, common/electromagnetic_emission/model.rs:209-211 *)
Definition rl_beam (m : mode) (b : Beam) : W Z :=
  (t <- mul16 m 8 (zlen (be_tracks b) mod 65536);; add16 m 52 t)%write.
(* common/electromagnetic_emission/parser.rs:52-77 *)
Definition p_beam : bparser Beam :=
  (_ <- be_u8;; n <- be_u8;; i <- be_u16;; f <- p_fpd;; d <- p_beam_data;; fu <- be_u8;; nt <- be_u8;; h <- be_u8;; s <- be_u8;;
   j <- p_jamming;; t <- count p_track_jam nt;; pret (MkBeam n i f d fu h s j t))%parse.
(* common/electromagnetic_emission/writer.rs:39-59 *)
Definition w_beam (m : mode) (b : Beam) : W Z :=
  (rl <- rl_beam m b;; put_u8 (rl / 4 mod 256);; put_u8 (be_number b);; put_u16 (be_index b);;
   p <- w_fpd (be_parameters b);; d <- w_beam_data (be_data b);;
   put_u8 (be_function b);; put_u8 (zlen (be_tracks b) mod 256);; put_u8 (be_high_density b);; put_u8 (be_status b);;
   j <- w_jamming (be_technique b);; t <- wmap_sum m w_track_jam (be_tracks b);; add16 m (8 + p + d + j) t)%write.
(* system_data_length_bytes, common/electromagnetic_emission/model.rs:123-128 *)
Definition rl_emitter_system (m : mode) (s : EmitterSystem) : W Z :=
  (n <- wmap_sum m (rl_beam m) (es_beams s);; add16 m 20 n)%write.
(* common/electromagnetic_emission/parser.rs:31-50 *)
Definition p_emitter_system : bparser EmitterSystem :=
  (_ <- be_u8;; nb <- be_u8;; _ <- be_u16;; n <- be_u16;; f <- be_u8;; u <- be_u8;; l <- p_vec3_f32;; b <- count p_beam nb;;
   pret (MkEmitterSystem n f u l b))%parse.
(* common/electromagnetic_emission/writer.rs:20-37 *)
Definition w_emitter_system (m : mode) (s : EmitterSystem) : W Z :=
  (rl <- rl_emitter_system m s;; put_u8 (rl / 4 mod 256);; put_u8 (zlen (es_beams s) mod 256);; put_u16 0;;
   put_u16 (es_name s);; put_u8 (es_function s);; put_u8 (es_number s);; l <- w_vector_f32 (es_location s);;
   b <- wmap_sum m (w_beam m) (es_beams s);; add16 m (8 + l) b)%write.
(* common/electromagnetic_emission/parser.rs:10-29 *)
Definition p_emission_body : bparser ElectromagneticEmission :=
  (i <- p_entity_id;; e <- p_event_id;; u <- be_u8;; n <- be_u8;; _ <- be_u16;; s <- count p_emitter_system n;; pret (MkEE i e u s))%parse.
(* common/electromagnetic_emission/writer.rs:5-18 *)
Definition w_emission (m : mode) (x : ElectromagneticEmission) : W Z :=
  (i <- w_entity_id (EE_emitting_entity_id x);; e <- w_event_id (EE_event_id x);; put_u8 (EE_state_update x);;
   put_u8 (zlen (EE_systems x) mod 256);; put_u16 0;; s <- wmap_sum m (w_emitter_system m) (EE_systems x);; add16 m (i + e + 4) s)%write.
(* body_length, common/electromagnetic_emission/model.rs:36-42 *)
Definition len_emission (m : mode) (x : ElectromagneticEmission) : W Z :=
  (n <- wmap_sum m (rl_emitter_system m) (EE_systems x);; add16 m 16 n)%write.
Definition size_beam (b : Beam) : Z := 52 + 8 * zlen (be_tracks b).
Definition size_emitter_system (s : EmitterSystem) : Z := 20 + zsum (map size_beam (es_beams s)).
Definition size_emission (x : ElectromagneticEmission) : Z := 16 + zsum (map size_emitter_system (EE_systems x)).
Definition fits_emission (x : ElectromagneticEmission) : Prop :=
  size_emission x < 65524 /\ zlen (EE_systems x) < 256 /\
  Forall (fun s => zlen (es_beams s) < 256 /\ Forall (fun b => zlen (be_tracks b) < 256) (es_beams s)) (EE_systems x).
(* common/electromagnetic_emission/model.rs:49-64 *)
Definition orig_emission (x : ElectromagneticEmission) : option EntityId := Some (EE_emitting_entity_id x).
Definition recv_emission (x : ElectromagneticEmission) : option EntityId :=
  match EE_systems x with
  | [] => None
  | s :: _ => match es_beams s with
    | [] => None
    | b :: _ => match be_tracks b with [] => None | t :: _ => Some (tj_entity t) end
    end
  end.

Lemma RT_track_jam t : wf_TrackJam t -> RT (w_track_jam t) p_track_jam t 8 8.
Proof. destruct t; unfold wf_TrackJam, w_track_jam, p_track_jam; cbn [tj_entity tj_emitter tj_beam]; intros; wfd. rt. Qed.
Lemma RT_jamming t : wf_Jamming t -> RT (w_jamming t) p_jamming t 4 4.
Proof. destruct t; unfold wf_Jamming, w_jamming, p_jamming; cbn [jt_kind jt_category jt_subcategory jt_specific]; intros; wfd. rt. Qed.
Lemma RT_fpd t : wf_FPD t -> RT (w_fpd t) p_fpd t 20 20.
Proof. destruct t; unfold wf_FPD, w_fpd, p_fpd; cbn [fp_frequency fp_range fp_power fp_prf fp_width]; intros; wfd. rt. Qed.
Global Hint Resolve RT_jamming RT_fpd : rt.
Lemma size_beam_bound b : 52 <= size_beam b.
Proof. unfold size_beam. pose proof (zlen_nonneg (be_tracks b)). lia. Qed.
Lemma size_emitter_bound s : 20 + 52 * zlen (es_beams s) <= size_emitter_system s.
Proof. unfold size_emitter_system. pose proof (zsum_lower size_beam 52 (es_beams s) (fun b _ => size_beam_bound b)). lia. Qed.
Lemma rl_beam_ok m b : size_beam b < 65536 -> rl_beam m b = WOk [] (size_beam b).
Proof.
  unfold size_beam, rl_beam; intros H. pose proof (zlen_nonneg (be_tracks b)). rewrite Z.mod_small by lia.
  rewrite mul16_ok by lia. unfold wbind. rewrite add16_ok by lia. reflexivity.
Qed.
Lemma beam_le l b : In b l -> size_beam b <= zsum (map size_beam l).
Proof. intros Hi. apply zsum_elt_le; [|exact Hi]. intros y _. pose proof (size_beam_bound y). lia. Qed.
Lemma rl_emitter_system_ok m s : size_emitter_system s < 65536 -> rl_emitter_system m s = WOk [] (size_emitter_system s).
Proof.
  unfold size_emitter_system, rl_emitter_system; intros H. pose proof (size_emitter_bound s) as B. unfold size_emitter_system in B. pose proof (zlen_nonneg (es_beams s)).
  rewrite wmap_sum_pure with (len := size_beam); [unfold wbind; rewrite add16_ok by lia; reflexivity| |lia].
  intros b Hi. pose proof (beam_le _ _ Hi). pose proof (size_beam_bound b). split; [apply rl_beam_ok|]; lia.
Qed.
Lemma RT_beam m b : wf_Beam b -> zlen (be_tracks b) < 256 -> RT (w_beam m b) p_beam b (size_beam b) (size_beam b).
Proof.
  intros Hw Hn. pose proof (zlen_nonneg (be_tracks b)). unfold w_beam, p_beam. rewrite rl_beam_ok by (unfold size_beam; lia).
  unfold size_beam. destruct b; unfold wf_Beam in Hw; cbn [be_number be_index be_parameters be_data be_function be_high_density be_status be_technique be_tracks] in *; wfd.
  eapply RT_wpure; [reflexivity|]. rewrite (Z.mod_small (zlen _)) by lia.
  match goal with |- context [put_u8 (?a mod 256)] => pose proof (Z.mod_pos_bound a 256 ltac:(lia)) end.
  eapply RT_conv.
  - do 10 rt_step. eapply RT_bind; [apply (RT_const_list m _ _ _ 8 _ _ RT_track_jam); side|]; cbv beta. apply RT_pure_end, add16_ok; lia.
  - reflexivity.
  - lia.
  - lia.
Qed.
Lemma RT_emitter_system m s : wf_EmitterSystem s -> size_emitter_system s < 65536 -> zlen (es_beams s) < 256 ->
  Forall (fun b => zlen (be_tracks b) < 256) (es_beams s) ->
  RT (w_emitter_system m s) p_emitter_system s (size_emitter_system s) (size_emitter_system s).
Proof.
  intros Hw Hs Hn Hb. pose proof (zlen_nonneg (es_beams s)). unfold w_emitter_system, p_emitter_system. rewrite rl_emitter_system_ok by lia.
  pose proof (size_emitter_bound s) as B. unfold size_emitter_system in *.
  destruct s; unfold wf_EmitterSystem in Hw; cbn [es_name es_function es_number es_location es_beams] in *; wfd.
  eapply RT_wpure; [reflexivity|]. rewrite (Z.mod_small (zlen _)) by lia.
  match goal with |- context [put_u8 (?a mod 256)] => pose proof (Z.mod_pos_bound a 256 ltac:(lia)) end.
  eapply RT_conv.
  - do 7 rt_step. eapply RT_bind; [apply RT_wmap_sum with (len := size_beam); [reflexivity| |lia]|]; cbv beta.
    { intros b Hi. rewrite Forall_forall in *. apply RT_beam; auto. }
    apply RT_pure_end, add16_ok; lia.
  - reflexivity.
  - lia.
  - lia.
Qed.
Lemma emitter_systems_bound l : 20 * zlen l <= zsum (map size_emitter_system l).
Proof. apply zsum_lower. intros s _. pose proof (size_emitter_bound s). pose proof (zlen_nonneg (es_beams s)). lia. Qed.
Lemma emitter_system_le l b : In b l -> size_emitter_system b <= zsum (map size_emitter_system l).
Proof. intros Hi. apply zsum_elt_le; [|exact Hi]. intros s _. pose proof (size_emitter_bound s). pose proof (zlen_nonneg (es_beams s)). lia. Qed.
Lemma len_emission_ok m x : fits_emission x -> len_emission m x = WOk [] (size_emission x).
Proof.
  intros (Hs & _). unfold size_emission, len_emission in *. pose proof (emitter_systems_bound (EE_systems x)). pose proof (zlen_nonneg (EE_systems x)).
  rewrite wmap_sum_pure with (len := size_emitter_system); [unfold wbind; rewrite add16_ok by lia; reflexivity| |lia].
  intros b Hi. pose proof (emitter_system_le _ _ Hi). pose proof (size_emitter_bound b). pose proof (zlen_nonneg (es_beams b)). split; [apply rl_emitter_system_ok|]; lia.
Qed.
Lemma RT_emission m x : wf_EE x -> fits_emission x -> RT (w_emission m x) p_emission_body x (size_emission x) (size_emission x).
Proof.
  intros Hw (Hs & Hn & Hb). unfold w_emission, p_emission_body, size_emission in *.
  destruct x; unfold wf_EE in Hw; cbn [EE_emitting_entity_id EE_event_id EE_state_update EE_systems] in *; wfd.
  match goal with H : Forall wf_EmitterSystem ?l |- _ => pose proof (emitter_systems_bound l); pose proof (zlen_nonneg l) end.
  rewrite Z.mod_small by lia. eapply RT_conv.
  - do 5 rt_step. eapply RT_bind; [apply RT_wmap_sum with (len := size_emitter_system); [reflexivity| |lia]|]; cbv beta.
    { intros b Hi. pose proof (emitter_system_le _ _ Hi). rewrite Forall_forall in *. destruct (Hb b Hi). apply RT_emitter_system; auto. lia. }
    apply RT_pure_end, add16_ok; lia.
  - reflexivity.
  - lia.
  - lia.
Qed.
Lemma Ext_track_jam : Ext p_track_jam. Proof. unfold p_track_jam; ext. Qed.
Lemma Ext_jamming : Ext p_jamming. Proof. unfold p_jamming; ext. Qed.
Lemma Ext_fpd : Ext p_fpd. Proof. unfold p_fpd; ext. Qed.
Global Hint Resolve Ext_track_jam Ext_jamming Ext_fpd : ext.
Lemma Ext_beam : Ext p_beam. Proof. unfold p_beam; ext. Qed.
Global Hint Resolve Ext_beam : ext.
Lemma Ext_emitter_system : Ext p_emitter_system. Proof. unfold p_emitter_system; ext. Qed.
Global Hint Resolve Ext_emitter_system : ext.
Lemma Ext_emission : Ext p_emission_body. Proof. unfold p_emission_body; ext. Qed.
Lemma Safe_track_jam : Safe p_track_jam. Proof. unfold p_track_jam; safe. Qed.
Lemma Safe_jamming : Safe p_jamming. Proof. unfold p_jamming; safe. Qed.
Lemma Safe_fpd : Safe p_fpd. Proof. unfold p_fpd; safe. Qed.
Global Hint Resolve Safe_track_jam Safe_jamming Safe_fpd : safe.
Lemma Safe_beam : Safe p_beam. Proof. unfold p_beam; safe. Qed.
Global Hint Resolve Safe_beam : safe.
Lemma Safe_emitter_system : Safe p_emitter_system. Proof. unfold p_emitter_system; safe. Qed.
Global Hint Resolve Safe_emitter_system : safe.
Lemma Safe_emission : Safe p_emission_body. Proof. unfold p_emission_body; safe. Qed.

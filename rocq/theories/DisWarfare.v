(** Fire, Detonation, EntityStateUpdate, SEES, Other, Attribute and Signal PDU bodies:
    model, parser, writer, body length.
    Sources: /repo/dis-rs/src/common/<pdu>/{model,parser,writer}.rs.
    Conventions as in DisCommon. *)
From Verif Require Import Base DisCommon DisLists.

(** ** Optional list of variable parameters
    [if no > 0 { count(variable_parameter, no as usize) } else { vec![] }],
    common/detonation/parser.rs:27-29, entity_state_update/parser.rs:20-22, entity_state/parser.rs:33-35 *)
Definition p_vps (n : Z) : bparser (list VariableParameter) :=
  if 0 <? n then count p_variable_parameter n else pret [].
Lemma p_vps_eq n i : p_vps n i = count p_variable_parameter n i.
Proof.
  unfold p_vps. destruct (Z.ltb_spec 0 n); [reflexivity|]. unfold count.
  replace (Z.to_nat n) with 0%nat by lia. reflexivity.
Qed.
Lemma Ext_vps n : Ext (p_vps n). Proof. unfold p_vps; ext. Qed.
Lemma Safe_vps n : Safe (p_vps n). Proof. unfold p_vps; safe. Qed.
Global Hint Resolve Ext_vps : ext. Global Hint Resolve Safe_vps : safe.
Lemma RT_vps' m l n : n = zlen l -> Forall wf_VariableParameter l -> Forall vp_ok l -> 16 * zlen l < 65536 ->
  RT (wmap_sum m (w_variable_parameter m) l) (p_vps n) l (16 * zlen l) (16 * zlen l).
Proof. intros. eapply RT_pext; [apply p_vps_eq|]. apply RT_vps; assumption. Qed.
Ltac vps_rt :=
  pdu_facts; pdu_mods;
  eapply RT_conv; [repeat first [ match goal with
    | |- RT (wbind (wmap_sum _ (w_variable_parameter _) _) _) (pbind (p_vps _) _) _ _ _ => eapply RT_bind; [apply RT_vps'; side|]; cbv beta
    end | pdu_step] | try reflexivity | try reflexivity; try lia | try reflexivity; try lia].

(** ** Fire *)
(* common/fire/model.rs:12-22 *)
Record Fire := MkFire {
  Fire_firing_entity_id : EntityId;
  Fire_target_entity_id : EntityId;
  Fire_entity_id : EntityId;
  Fire_event_id : EventId;
  Fire_fire_mission_index : Z;
  Fire_location_in_world : Location;
  Fire_descriptor : DescriptorRecord;
  Fire_velocity : VectorF32;
  Fire_range : Z }.
Definition wf_Fire (x : Fire) : Prop :=
  wf_EntityId (Fire_firing_entity_id x) /\ wf_EntityId (Fire_target_entity_id x) /\ wf_EntityId (Fire_entity_id x) /\
  wf_EventId (Fire_event_id x) /\ u32 (Fire_fire_mission_index x) /\ wf_Location (Fire_location_in_world x) /\
  wf_DescriptorRecord (Fire_descriptor x) /\ wf_VectorF32 (Fire_velocity x) /\ u32 (Fire_range x).
(* common/fire/parser.rs:9-41; [fti] is [header.pdu_status.unwrap_or_default().fire_type_indicator.unwrap_or(Munition)] *)
Definition p_fire_body (fti : Z) : bparser Fire :=
  (a <- p_entity_id;; b <- p_entity_id;; c <- p_entity_id;; e <- p_event_id;; fmi <- be_u32;;
   l <- p_location;; d <- p_descriptor_record_fti fti;; v <- p_vec3_f32;; r <- be_f32;;
   pret (MkFire a b c e fmi l d v r))%parse.
(* common/fire/writer.rs:5-21 *)
Definition w_fire (m : mode) (x : Fire) : W Z :=
  (a <- w_entity_id (Fire_firing_entity_id x);;
   b <- w_entity_id (Fire_target_entity_id x);;
   c <- w_entity_id (Fire_entity_id x);;
   e <- w_event_id (Fire_event_id x);;
   put_u32 (Fire_fire_mission_index x);;
   l <- w_location (Fire_location_in_world x);;
   d <- w_descriptor_record (Fire_descriptor x);;
   v <- w_vector_f32 (Fire_velocity x);;
   put_f32 (Fire_range x);;
   wret (a + b + c + e + 4 + l + d + v + 4))%write.
(* common/fire/model.rs:38-41, FIRE_BODY_LENGTH = 28 *)
Definition len_fire (m : mode) (x : Fire) : W Z := wret 28.
Definition size_fire (x : Fire) : Z := 84.
(** the parser chooses the descriptor variant by the fire type indicator of the header *)
Definition fits_fire (fti : Z) (x : Fire) : Prop := descriptor_fits_fti fti (Fire_descriptor x).
(* common/fire/model.rs:48-56 *)
Definition orig_fire (x : Fire) : option EntityId := Some (Fire_firing_entity_id x).
Definition recv_fire (x : Fire) : option EntityId := Some (Fire_target_entity_id x).
Lemma RT_fire m fti x : wf_Fire x -> fits_fire fti x -> RT (w_fire m x) (p_fire_body fti) x (size_fire x) (size_fire x).
Proof.
  destruct x; unfold wf_Fire, fits_fire, size_fire, w_fire, p_fire_body;
  cbn [Fire_firing_entity_id Fire_target_entity_id Fire_entity_id Fire_event_id Fire_fire_mission_index
       Fire_location_in_world Fire_descriptor Fire_velocity Fire_range]; intros; wfd.
  eapply RT_conv; [|reflexivity|reflexivity|reflexivity].
  eapply RT_conv; [repeat first [eapply RT_bind; [apply RT_descriptor_fti; assumption|]; cbv beta | rt_step]| | |]; try reflexivity; lia.
Qed.
Lemma Ext_fire f : Ext (p_fire_body f). Proof. unfold p_fire_body; ext. Qed.
Lemma Safe_fire f : Safe (p_fire_body f). Proof. unfold p_fire_body; safe. Qed.
Lemma len_fire_ok m x : len_fire m x = WOk [] (size_fire x - 56). Proof. reflexivity. Qed.

(** ** Detonation *)
(* common/detonation/model.rs:10-21 *)
Record Detonation := MkDetonation {
  Detonation_source_entity_id : EntityId;
  Detonation_target_entity_id : EntityId;
  Detonation_exploding_entity_id : EntityId;
  Detonation_event_id : EventId;
  Detonation_velocity : VectorF32;
  Detonation_world_location : Location;
  Detonation_descriptor : DescriptorRecord;
  Detonation_entity_location : VectorF32;
  Detonation_result : Z;
  Detonation_variable_parameters : list VariableParameter }.
Definition wf_Detonation (x : Detonation) : Prop :=
  wf_EntityId (Detonation_source_entity_id x) /\ wf_EntityId (Detonation_target_entity_id x) /\
  wf_EntityId (Detonation_exploding_entity_id x) /\ wf_EventId (Detonation_event_id x) /\
  wf_VectorF32 (Detonation_velocity x) /\ wf_Location (Detonation_world_location x) /\
  wf_DescriptorRecord (Detonation_descriptor x) /\ wf_VectorF32 (Detonation_entity_location x) /\
  u8 (Detonation_result x) /\ Forall wf_VariableParameter (Detonation_variable_parameters x).
(* common/detonation/parser.rs:10-44; [dti] from the header status, default Munition *)
Definition p_detonation_body (dti : Z) : bparser Detonation :=
  (a <- p_entity_id;; b <- p_entity_id;; c <- p_entity_id;; e <- p_event_id;; v <- p_vec3_f32;;
   l <- p_location;; d <- p_descriptor_record_dti dti;; el <- p_vec3_f32;; r <- be_u8;; n <- be_u8;; _ <- be_u16;;
   vps <- p_vps n;;
   pret (MkDetonation a b c e v l d el r vps))%parse.
(* common/detonation/writer.rs:5-26 *)
Definition w_detonation (m : mode) (x : Detonation) : W Z :=
  (a <- w_entity_id (Detonation_source_entity_id x);;
   b <- w_entity_id (Detonation_target_entity_id x);;
   c <- w_entity_id (Detonation_exploding_entity_id x);;
   e <- w_event_id (Detonation_event_id x);;
   v <- w_vector_f32 (Detonation_velocity x);;
   l <- w_location (Detonation_world_location x);;
   d <- w_descriptor_record (Detonation_descriptor x);;
   el <- w_vector_f32 (Detonation_entity_location x);;
   put_u8 (Detonation_result x);;
   put_u8 (zlen (Detonation_variable_parameters x) mod 256);;
   put_u16 0;;
   vps <- wmap_sum m (w_variable_parameter m) (Detonation_variable_parameters x);;
   add16 m (a + b + c + e + v + l + d + el + 4) vps)%write.
(* common/detonation/model.rs:37-40, BASE_DETONATION_BODY_LENGTH = 104 *)
Definition len_detonation (m : mode) (x : Detonation) : W Z :=
  (a <- mul16 m 16 (zlen (Detonation_variable_parameters x) mod 65536);; add16 m 104 a)%write.
Definition size_detonation (x : Detonation) : Z := 92 + 16 * zlen (Detonation_variable_parameters x).
Definition fits_detonation (dti : Z) (x : Detonation) : Prop :=
  zlen (Detonation_variable_parameters x) < 256 /\ descriptor_fits_dti dti (Detonation_descriptor x) /\
  not_explosion (Detonation_descriptor x) /\ Forall vp_ok (Detonation_variable_parameters x).
(* common/detonation/model.rs:47-55 *)
Definition orig_detonation (x : Detonation) : option EntityId := Some (Detonation_source_entity_id x).
Definition recv_detonation (x : Detonation) : option EntityId := Some (Detonation_target_entity_id x).
Lemma RT_detonation m dti x : wf_Detonation x -> fits_detonation dti x ->
  RT (w_detonation m x) (p_detonation_body dti) x (size_detonation x) (size_detonation x).
Proof.
  destruct x; unfold wf_Detonation, fits_detonation, size_detonation, w_detonation, p_detonation_body;
  cbn [Detonation_source_entity_id Detonation_target_entity_id Detonation_exploding_entity_id Detonation_event_id
    Detonation_velocity Detonation_world_location Detonation_descriptor Detonation_entity_location Detonation_result
    Detonation_variable_parameters]; intros; wfd.
  pdu_facts; pdu_mods.
  eapply RT_conv.
  - do 6 rt_step. eapply RT_bind; [apply RT_descriptor_dti; assumption|]; cbv beta. do 4 rt_step.
    eapply RT_bind; [apply RT_vps'; side|]; cbv beta. repeat pdu_step.
  - reflexivity.
  - lia.
  - lia.
Qed.
Lemma Ext_detonation f : Ext (p_detonation_body f). Proof. unfold p_detonation_body; ext. Qed.
Lemma Safe_detonation f : Safe (p_detonation_body f). Proof. unfold p_detonation_body; safe. Qed.
Lemma len_detonation_ok m dti x : fits_detonation dti x -> len_detonation m x = WOk [] (size_detonation x + 12).
Proof. unfold fits_detonation, len_detonation, size_detonation. intros; wfd. pdu_len. Qed.

(** ** Entity appearance
    The enum EntityAppearance (common/entity_state/model.rs:72-88) has one variant per (kind, domain),
    each wrapping a bit field struct generated from SISO-REF-010. Simplification: a variant carries the
    32-bit word its struct is written as; the bit field structs themselves are modelled in EnumGen.v. *)
Inductive AppearanceKind :=
| ALand | AAir | ASurface | ASubsurface | ASpace | AMunition | ALifeForms | AEnvironmental | ACultural
| ASupply | ARadio | AExpendable | ASensorEmitter | AUnspecified.
Record EntityAppearance := MkAppearance { ea_kind : AppearanceKind; ea_word : Z }.
Definition wf_EntityAppearance (a : EntityAppearance) : Prop := u32 (ea_word a).
(* common/entity_state/model.rs:98-120 (EntityAppearance::from_bytes): the variant by entity kind and domain *)
Definition appearance_kind (kind domain : Z) : AppearanceKind :=
  match kind with
  | 1 => match domain with 1 => ALand | 2 => AAir | 3 => ASurface | 4 => ASubsurface | 5 => ASpace | _ => AUnspecified end
  | 2 => AMunition | 3 => ALifeForms | 4 => AEnvironmental | 5 => ACultural | 6 => ASupply
  | 7 => ARadio | 8 => AExpendable | 9 => ASensorEmitter
  | _ => AUnspecified
  end.
(* common/entity_state/parser.rs:58-61 *)
Definition p_entity_appearance (kind domain : Z) : bparser EntityAppearance :=
  (v <- be_u32;; pret (MkAppearance (appearance_kind kind domain) v))%parse.
(* common/entity_state/writer.rs:83-111 *)
Definition w_entity_appearance (a : EntityAppearance) : W Z := (put_u32 (ea_word a);; wret 4)%write.
Lemma RT_entity_appearance k d a : wf_EntityAppearance a -> ea_kind a = appearance_kind k d ->
  RT (w_entity_appearance a) (p_entity_appearance k d) a 4 4.
Proof. destruct a; unfold wf_EntityAppearance, w_entity_appearance, p_entity_appearance; cbn [ea_kind ea_word]. intros ? ->. rt. Qed.
Lemma Ext_entity_appearance k d : Ext (p_entity_appearance k d). Proof. unfold p_entity_appearance; ext. Qed.
Lemma Safe_entity_appearance k d : SafeP (p_entity_appearance k d) wf_EntityAppearance.
Proof. unfold p_entity_appearance. eapply Safe_bind; [apply Safe_be_u32|]. intros. apply Safe_ret. assumption. Qed.
Global Hint Resolve Ext_entity_appearance : ext. Global Hint Resolve Safe_entity_appearance : safe.

(** ** EntityStateUpdate *)
(* common/entity_state_update/model.rs:14-21 *)
Record EntityStateUpdate := MkEntityStateUpdate {
  EntityStateUpdate_entity_id : EntityId;
  EntityStateUpdate_velocity : VectorF32;
  EntityStateUpdate_location : Location;
  EntityStateUpdate_orientation : Orientation;
  EntityStateUpdate_appearance : EntityAppearance;
  EntityStateUpdate_variable_parameters : list VariableParameter }.
Definition wf_EntityStateUpdate (x : EntityStateUpdate) : Prop :=
  wf_EntityId (EntityStateUpdate_entity_id x) /\ wf_VectorF32 (EntityStateUpdate_velocity x) /\
  wf_Location (EntityStateUpdate_location x) /\ wf_Orientation (EntityStateUpdate_orientation x) /\
  wf_EntityAppearance (EntityStateUpdate_appearance x) /\
  Forall wf_VariableParameter (EntityStateUpdate_variable_parameters x).
(* common/entity_state_update/parser.rs:10-33; kind Other = 0, domain of the default EntityType = 0 *)
Definition p_entity_state_update_body : bparser EntityStateUpdate :=
  (a <- p_entity_id;; _ <- be_u8;; n <- be_u8;; v <- p_vec3_f32;; l <- p_location;; o <- p_orientation;;
   ap <- p_entity_appearance 0 0;; vps <- p_vps n;;
   pret (MkEntityStateUpdate a v l o ap vps))%parse.
(* common/entity_state_update/writer.rs:5-21 *)
Definition w_entity_state_update (m : mode) (x : EntityStateUpdate) : W Z :=
  (a <- w_entity_id (EntityStateUpdate_entity_id x);;
   put_u8 0;;
   put_u8 (zlen (EntityStateUpdate_variable_parameters x) mod 256);;
   v <- w_vector_f32 (EntityStateUpdate_velocity x);;
   l <- w_location (EntityStateUpdate_location x);;
   o <- w_orientation (EntityStateUpdate_orientation x);;
   ap <- w_entity_appearance (EntityStateUpdate_appearance x);;
   vps <- wmap_sum m (w_variable_parameter m) (EntityStateUpdate_variable_parameters x);;
   add16 m (a + 2 + v + l + o + ap) vps)%write.
(* common/entity_state_update/model.rs:37-40 *)
Definition len_entity_state_update (m : mode) (x : EntityStateUpdate) : W Z :=
  (a <- mul16 m 16 (zlen (EntityStateUpdate_variable_parameters x) mod 65536);; add16 m 60 a)%write.
Definition size_entity_state_update (x : EntityStateUpdate) : Z := 60 + 16 * zlen (EntityStateUpdate_variable_parameters x).
Definition fits_entity_state_update (x : EntityStateUpdate) : Prop :=
  zlen (EntityStateUpdate_variable_parameters x) < 256 /\ ea_kind (EntityStateUpdate_appearance x) = AUnspecified /\
  Forall vp_ok (EntityStateUpdate_variable_parameters x).
(* common/entity_state_update/model.rs:47-55 *)
Definition orig_entity_state_update (x : EntityStateUpdate) : option EntityId := Some (EntityStateUpdate_entity_id x).
Definition recv_entity_state_update (x : EntityStateUpdate) : option EntityId := None.
Lemma RT_entity_state_update m x : wf_EntityStateUpdate x -> fits_entity_state_update x ->
  RT (w_entity_state_update m x) p_entity_state_update_body x (size_entity_state_update x) (size_entity_state_update x).
Proof.
  destruct x; unfold wf_EntityStateUpdate, fits_entity_state_update, size_entity_state_update, w_entity_state_update, p_entity_state_update_body;
  cbn [EntityStateUpdate_entity_id EntityStateUpdate_velocity EntityStateUpdate_location EntityStateUpdate_orientation
    EntityStateUpdate_appearance EntityStateUpdate_variable_parameters]; intros; wfd.
  pdu_facts; pdu_mods. eapply RT_conv.
  - do 6 rt_step. eapply RT_bind; [apply RT_entity_appearance; assumption|]; cbv beta.
    eapply RT_bind; [apply RT_vps'; side|]; cbv beta. repeat pdu_step.
  - reflexivity.
  - lia.
  - lia.
Qed.
Lemma Ext_entity_state_update : Ext p_entity_state_update_body. Proof. unfold p_entity_state_update_body; ext. Qed.
Lemma Safe_entity_state_update : Safe p_entity_state_update_body. Proof. unfold p_entity_state_update_body; safe. Qed.
Lemma len_entity_state_update_ok m x : fits_entity_state_update x -> len_entity_state_update m x = WOk [] (size_entity_state_update x).
Proof. unfold fits_entity_state_update, len_entity_state_update, size_entity_state_update. intros; wfd. pdu_len. Qed.

(** ** Supplemental emission / entity state *)
(* common/sees/model.rs:60-63, 79-82 *)
Record PropulsionSystemData := MkPropulsion { ps_power : Z; ps_rpm : Z }.
Record VectoringNozzleSystemData := MkNozzle { vn_horizontal : Z; vn_vertical : Z }.
Definition wf_Propulsion p := u32 (ps_power p) /\ u32 (ps_rpm p).
Definition wf_Nozzle p := u32 (vn_horizontal p) /\ u32 (vn_vertical p).
(* common/sees/parser.rs:31-38, 40-47 *)
Definition p_propulsion : bparser PropulsionSystemData := (a <- be_f32;; b <- be_f32;; pret (MkPropulsion a b))%parse.
Definition p_nozzle : bparser VectoringNozzleSystemData := (a <- be_f32;; b <- be_f32;; pret (MkNozzle a b))%parse.
(* common/sees/writer.rs:25-32, 34-41 *)
Definition w_propulsion (p : PropulsionSystemData) : W Z := (put_f32 (ps_power p);; put_f32 (ps_rpm p);; wret 8)%write.
Definition w_nozzle (p : VectoringNozzleSystemData) : W Z := (put_f32 (vn_horizontal p);; put_f32 (vn_vertical p);; wret 8)%write.
Lemma RT_propulsion p : wf_Propulsion p -> RT (w_propulsion p) p_propulsion p 8 8.
Proof. destruct p; unfold wf_Propulsion, w_propulsion, p_propulsion; cbn; intros; wfd. rt. Qed.
Lemma RT_nozzle p : wf_Nozzle p -> RT (w_nozzle p) p_nozzle p 8 8.
Proof. destruct p; unfold wf_Nozzle, w_nozzle, p_nozzle; cbn; intros; wfd. rt. Qed.
Lemma Ext_propulsion : Ext p_propulsion. Proof. unfold p_propulsion; ext. Qed.
Lemma Ext_nozzle : Ext p_nozzle. Proof. unfold p_nozzle; ext. Qed.
Lemma Safe_propulsion : Safe p_propulsion. Proof. unfold p_propulsion; safe. Qed.
Lemma Safe_nozzle : Safe p_nozzle. Proof. unfold p_nozzle; safe. Qed.
Global Hint Resolve Ext_propulsion Ext_nozzle : ext. Global Hint Resolve Safe_propulsion Safe_nozzle : safe.
(* common/sees/model.rs:13-20 *)
Record Sees := MkSees {
  Sees_originating_entity_id : EntityId; Sees_infrared : Z; Sees_acoustic : Z; Sees_radar : Z;
  Sees_propulsion_systems : list PropulsionSystemData; Sees_vectoring_nozzle_systems : list VectoringNozzleSystemData }.
Definition wf_Sees (x : Sees) : Prop :=
  wf_EntityId (Sees_originating_entity_id x) /\ u16 (Sees_infrared x) /\ u16 (Sees_acoustic x) /\ u16 (Sees_radar x) /\
  Forall wf_Propulsion (Sees_propulsion_systems x) /\ Forall wf_Nozzle (Sees_vectoring_nozzle_systems x).
(* common/sees/parser.rs:8-29 *)
Definition p_sees_body : bparser Sees :=
  (a <- p_entity_id;; ir <- be_u16;; ac <- be_u16;; rc <- be_u16;; n1 <- be_u16;; n2 <- be_u16;;
   ps <- count p_propulsion n1;; ns <- count p_nozzle n2;;
   pret (MkSees a ir ac rc ps ns))%parse.
(* common/sees/writer.rs:5-23 *)
Definition w_sees (m : mode) (x : Sees) : W Z :=
  (a <- w_entity_id (Sees_originating_entity_id x);;
   put_u16 (Sees_infrared x);; put_u16 (Sees_acoustic x);; put_u16 (Sees_radar x);;
   put_u16 (zlen (Sees_propulsion_systems x) mod 65536);;
   put_u16 (zlen (Sees_vectoring_nozzle_systems x) mod 65536);;
   ps <- wmap_sum m w_propulsion (Sees_propulsion_systems x);;
   ns <- wmap_sum m w_nozzle (Sees_vectoring_nozzle_systems x);;
   s <- add16 m (a + 10) ps;; add16 m s ns)%write.
(* common/sees/model.rs:36-41 *)
Definition len_sees (m : mode) (x : Sees) : W Z :=
  (a <- mul16 m 8 (zlen (Sees_propulsion_systems x) mod 65536);;
   s <- add16 m 16 a;;
   b <- mul16 m 8 (zlen (Sees_vectoring_nozzle_systems x) mod 65536);;
   add16 m s b)%write.
Definition size_sees (x : Sees) : Z := 16 + 8 * zlen (Sees_propulsion_systems x) + 8 * zlen (Sees_vectoring_nozzle_systems x).
Definition fits_sees (x : Sees) : Prop := size_sees x < 65524.
(* common/sees/model.rs:48-56 *)
Definition orig_sees (x : Sees) : option EntityId := Some (Sees_originating_entity_id x).
Definition recv_sees (x : Sees) : option EntityId := None.
Lemma RT_sees m x : wf_Sees x -> fits_sees x -> RT (w_sees m x) p_sees_body x (size_sees x) (size_sees x).
Proof.
  destruct x; unfold wf_Sees, fits_sees, size_sees, w_sees, p_sees_body;
  cbn [Sees_originating_entity_id Sees_infrared Sees_acoustic Sees_radar Sees_propulsion_systems Sees_vectoring_nozzle_systems]; intros; wfd.
  pdu_facts; pdu_mods. eapply RT_conv.
  - do 6 rt_step.
    eapply RT_bind; [apply (RT_const_list m _ _ _ 8 _ _ RT_propulsion); side|]; cbv beta.
    eapply RT_bind; [apply (RT_const_list m _ _ _ 8 _ _ RT_nozzle); side|]; cbv beta. repeat pdu_step.
  - reflexivity.
  - lia.
  - lia.
Qed.
Lemma Ext_sees : Ext p_sees_body. Proof. unfold p_sees_body; ext. Qed.
Lemma Safe_sees : Safe p_sees_body. Proof. unfold p_sees_body; safe. Qed.
Lemma len_sees_ok m x : fits_sees x -> len_sees m x = WOk [] (size_sees x).
Proof. unfold fits_sees, len_sees, size_sees. intros; wfd. pdu_len. Qed.

(** ** Other (unimplemented PDU types, body kept as raw octets) *)
(* common/other/model.rs:14-18 *)
Record Other := MkOther { Other_originating : option EntityId; Other_receiving : option EntityId; Other_body : list Z }.
Definition wf_Other (x : Other) : Prop :=
  bytes (Other_body x) /\
  match Other_originating x with Some e => wf_EntityId e | None => True end /\
  match Other_receiving x with Some e => wf_EntityId e | None => True end.
(** nom::combinator::peek *)
Definition peek {A} (p : bparser A) : bparser A := fun i =>
  match p i with POk _ a => POk i a | PErr k => PErr k | PPanic => PPanic end.
(* common/other/parser.rs:14-90: which PDU types start with the originating / receiving entity id *)
Definition other_peeks_one (ty : Z) : bool :=
  existsb (Z.eqb ty) [1;67;23;24;25;26;27;30;29;34;51;52;33;28].
Definition other_peeks_two (ty : Z) : bool :=
  existsb (Z.eqb ty) [2;3;4;5;6;7;8;9;10;11;12;13;14;15;16;17;18;19;20;21;36;53;54;55;56;57;58;59;60;61;62;63;64;65;66;22].
(* common/other/parser.rs:11-111, 113-121 *)
Definition p_other_body (ty len : Z) : bparser Other :=
  (ids <- (if other_peeks_one ty then (o <- peek p_entity_id;; pret (Some o, None))%parse
           else if other_peeks_two ty then
             (o <- peek (a <- p_entity_id;; b <- p_entity_id;; pret (a, b));; pret (Some (fst o), Some (snd o)))%parse
           else pret (None, None));;
   body <- take (Z.max 0 (len - 12));;
   pret (MkOther (fst ids) (snd ids) body))%parse.
(* common/other/writer.rs:5-13 *)
Definition w_other (m : mode) (x : Other) : W Z := (put_slice (Other_body x);; wret (zlen (Other_body x) mod 65536))%write.
(* common/other/model.rs:20-24 *)
Definition len_other (m : mode) (x : Other) : W Z := wret (zlen (Other_body x) mod 65536).
Definition size_other (x : Other) : Z := zlen (Other_body x).
(* common/other/model.rs:44-56 *)
Definition orig_other (x : Other) : option EntityId := Other_originating x.
Definition recv_other (x : Other) : option EntityId := Other_receiving x.
(** a raw body that a header of type [ty] and length 12 + size reads back as itself: the
    identifiers it carries are the ones at its beginning *)
Definition fits_other (ty : Z) (x : Other) : Prop :=
  size_other x < 65524 /\
  if other_peeks_one ty then Other_receiving x = None /\
     exists e r, Other_originating x = Some e /\ p_entity_id (Other_body x) = POk r e
  else if other_peeks_two ty then
     exists e f r r', Other_originating x = Some e /\ Other_receiving x = Some f /\
       p_entity_id (Other_body x) = POk r e /\ p_entity_id r = POk r' f
  else Other_originating x = None /\ Other_receiving x = None.
Lemma peek_ok {A} (p : bparser A) i r a x : Ext p -> p i = POk r a -> peek p (i ++ x) = POk (i ++ x) a.
Proof. intros He H. unfold peek. destruct (He _ _ _ H) as [_ Hx]. rewrite Hx. reflexivity. Qed.
Lemma RT_other m ty x : wf_Other x -> fits_other ty x ->
  RT (w_other m x) (p_other_body ty (12 + size_other x)) x (size_other x) (size_other x).
Proof.
  destruct x as [o r b]. unfold wf_Other, fits_other, size_other, w_other; cbn [Other_originating Other_receiving Other_body].
  intros _ [Hs Hc]. pose proof (zlen_nonneg b).
  exists b. split; [unfold put_slice, wbind, wret; rewrite app_nil_r, Z.mod_small by lia; reflexivity|].
  split; [reflexivity|]. intros rest. unfold p_other_body.
  assert (Ht : take (Z.max 0 (12 + zlen b - 12)) (b ++ rest) = POk rest b) by (apply take_app; lia).
  destruct (other_peeks_one ty).
  - destruct Hc as (-> & e & r' & -> & He). unfold pbind. rewrite (peek_ok _ _ _ _ _ Ext_entity_id He).
    unfold pret. rewrite Ht. reflexivity.
  - destruct (other_peeks_two ty).
    + destruct Hc as (e & f & r1 & r2 & -> & -> & He & Hf).
      assert (H2 : (a <- p_entity_id;; b0 <- p_entity_id;; pret (a, b0))%parse b = POk r2 (e, f)).
      { unfold pbind. rewrite He, Hf. reflexivity. }
      unfold pbind at 1. unfold pbind at 1. erewrite peek_ok; [|ext|exact H2]. unfold pret at 1, pbind. rewrite Ht. reflexivity.
    + destruct Hc as (-> & ->). unfold pbind, pret. rewrite Ht. reflexivity.
Qed.
Lemma Ext_peek {A} (p : bparser A) : Ext p -> Ext (peek p).
Proof.
  intros He i r a H. unfold peek in H. destruct (p i) eqn:E; try discriminate. inversion H; subst.
  split; [exists []; reflexivity|]. intros x. eapply peek_ok; eauto.
Qed.
Lemma Safe_peek {A} (p : bparser A) P : SafeP p P -> SafeP (peek p) P.
Proof. intros H i Hi. specialize (H i Hi). unfold peek. destruct (p i); intuition. Qed.
Lemma Ext_other ty len : Ext (p_other_body ty len).
Proof. unfold p_other_body. repeat first [apply Ext_peek | ext_step]. Qed.
Lemma Safe_other ty len : Safe (p_other_body ty len).
Proof.
  unfold p_other_body. eapply Safe_bind with (P := fun _ => True).
  - destruct (other_peeks_one ty); [|destruct (other_peeks_two ty)].
    + eapply Safe_bind; [apply Safe_peek; safe_atom|]. intros. apply Safe_ret. exact I.
    + eapply Safe_bind; [apply Safe_peek with (P := fun _ => True); safe|]. intros. apply Safe_ret. exact I.
    + apply Safe_ret. exact I.
  - intros [o r] _. eapply Safe_bind; [apply Safe_take; lia|]. intros. apply Safe_ret. exact I.
Qed.
Lemma len_other_ok m x : size_other x < 65536 -> len_other m x = WOk [] (size_other x).
Proof. unfold size_other, len_other. intros. pose proof (zlen_nonneg (Other_body x)). rewrite Z.mod_small by lia. reflexivity. Qed.

(** ** Attribute *)
(* common/attribute/model.rs:101-104, 64-67, 14-21 *)
Record AttributeRecord := MkAttributeRecord { ar_type : Z; ar_fields : list Z }.
Record AttributeRecordSet := MkAttributeRecordSet { as_entity_id : EntityId; as_records : list AttributeRecord }.
Record Attribute := MkAttribute {
  Attribute_address : SimulationAddress; Attribute_pdu_type : Z; Attribute_version : Z; Attribute_master_type : Z;
  Attribute_action_code : Z; Attribute_sets : list AttributeRecordSet }.
Definition wf_AttributeRecord r := u32 (ar_type r) /\ bytes (ar_fields r).
Definition wf_AttributeRecordSet s := wf_EntityId (as_entity_id s) /\ Forall wf_AttributeRecord (as_records s).
Definition wf_Attribute (x : Attribute) : Prop :=
  wf_SimulationAddress (Attribute_address x) /\ u8 (Attribute_pdu_type x) /\ u8 (Attribute_version x) /\
  u32 (Attribute_master_type x) /\ u8 (Attribute_action_code x) /\ Forall wf_AttributeRecordSet (Attribute_sets x).
(* common/attribute/parser.rs:47-56 *)
Definition p_attribute_record : bparser AttributeRecord :=
  (t <- be_u32;; n <- be_u16;; f <- take (Z.max 0 (n - 6));; pret (MkAttributeRecord t f))%parse.
(* common/attribute/parser.rs:37-45 *)
Definition p_attribute_record_set : bparser AttributeRecordSet :=
  (e <- p_entity_id;; n <- be_u16;; l <- count p_attribute_record n;; pret (MkAttributeRecordSet e l))%parse.
(* common/attribute/parser.rs:10-35 *)
Definition p_attribute_body : bparser Attribute :=
  (a <- p_simulation_address;; _ <- be_u32;; _ <- be_u16;; t <- be_u8;; v <- be_u8;; mt <- be_u32;; ac <- be_u8;;
   _ <- be_u8;; n <- be_u16;; l <- count p_attribute_record_set n;;
   pret (MkAttribute a t v mt ac l))%parse.
(* common/attribute/writer.rs:37-51 *)
Definition w_attribute_record (r : AttributeRecord) : W Z :=
  (pl <- w_padded (6 + zlen (ar_fields r)) 8;;
   put_u32 (ar_type r);; put_u16 (pl_record pl mod 65536);; put_slice (ar_fields r);; put_bytes 0 (pl_padding pl);;
   wret (pl_record pl mod 65536))%write.
(* common/attribute/writer.rs:26-35 *)
Definition w_attribute_record_set (m : mode) (s : AttributeRecordSet) : W Z :=
  (e <- w_entity_id (as_entity_id s);; put_u16 (zlen (as_records s) mod 65536);;
   n <- wmap_sum m w_attribute_record (as_records s);; add16 m (e + 2) n)%write.
(* common/attribute/writer.rs:7-24 *)
Definition w_attribute (m : mode) (x : Attribute) : W Z :=
  (a <- w_simulation_address (Attribute_address x);;
   put_u32 0;; put_u16 0;; put_u8 (Attribute_pdu_type x);; put_u8 (Attribute_version x);;
   put_u32 (Attribute_master_type x);; put_u8 (Attribute_action_code x);; put_u8 0;;
   put_u16 (zlen (Attribute_sets x) mod 65536);;
   n <- wmap_sum m (w_attribute_record_set m) (Attribute_sets x);;
   add16 m (a + 16) n)%write.
(* common/attribute/model.rs:37-45 *)
Definition len_attribute (m : mode) (x : Attribute) : W Z :=
  (n <- wmap_sum m (fun s =>
      (k <- wmap_sum m (fun r => add16 m 6 (zlen (ar_fields r) mod 65536)) (as_records s);; add16 m 8 k)%write) (Attribute_sets x);;
   add16 m 20 n)%write.
Definition size_attribute_record (r : AttributeRecord) : Z := 6 + zlen (ar_fields r) + pad_to (6 + zlen (ar_fields r)) 8.
Definition size_attribute_record_set (s : AttributeRecordSet) : Z := 8 + zsum (map size_attribute_record (as_records s)).
Definition size_attribute (x : Attribute) : Z := 20 + zsum (map size_attribute_record_set (Attribute_sets x)).
(** records that need no padding; others read back with the padding as data *)
Definition ar_ok (r : AttributeRecord) : Prop := (6 + zlen (ar_fields r)) mod 8 = 0.
Definition fits_attribute (x : Attribute) : Prop :=
  size_attribute x < 65524 /\ Forall (fun s => Forall ar_ok (as_records s)) (Attribute_sets x).
(* common/attribute/model.rs:52-60 *)
Definition orig_attribute (x : Attribute) : option EntityId := None.
Definition recv_attribute (x : Attribute) : option EntityId := None.
Lemma size_attribute_record_bound r : 6 <= size_attribute_record r.
Proof. unfold size_attribute_record. pose proof (zlen_nonneg (ar_fields r)). pose proof (pad_to_bound (6 + zlen (ar_fields r)) 8). lia. Qed.
Lemma ar_ok_size r : ar_ok r -> size_attribute_record r = 6 + zlen (ar_fields r).
Proof. unfold ar_ok, size_attribute_record. intros H. rewrite pad_to_aligned by (lia || assumption). lia. Qed.
Lemma zsum_lower {A} (f : A -> Z) c l : (forall x, In x l -> c <= f x) -> c * zlen l <= zsum (map f l).
Proof.
  induction l as [|x l IH]; intros H; cbn [map zsum]; [rewrite zlen_nil; lia|].
  rewrite zlen_cons. pose proof (H x (or_introl eq_refl)). assert (c * zlen l <= zsum (map f l)) by (apply IH; intros; apply H; now right). lia.
Qed.
Lemma size_attribute_set_bound s : 8 + 6 * zlen (as_records s) <= size_attribute_record_set s.
Proof. unfold size_attribute_record_set. pose proof (zsum_lower size_attribute_record 6 (as_records s) (fun r _ => size_attribute_record_bound r)). lia. Qed.
Lemma RT_attribute_record r : wf_AttributeRecord r -> ar_ok r -> size_attribute_record r < 65536 ->
  RT (w_attribute_record r) p_attribute_record r (size_attribute_record r) (size_attribute_record r).
Proof.
  intros [Ht Hb] Hok Hs. rewrite (ar_ok_size r Hok) in *. pose proof (zlen_nonneg (ar_fields r)).
  destruct r as [t f]; unfold ar_ok, w_attribute_record, p_attribute_record in *; cbn [ar_type ar_fields] in *.
  rewrite w_padded_ok by lia. rewrite pad_to_aligned by (lia || assumption). unfold wbind at 1. cbn [pl_record pl_padding].
  rewrite Z.add_0_r, Z.mod_small by lia.
  match goal with |- RT ?w _ _ _ _ => assert (E : w = (put_u32 t;; put_u16 (6 + zlen f);; put_slice f;; wret (6 + zlen f))%write) end.
  { unfold put_u32, put_u16, put_slice, put_bytes, put, wbind, wret. cbn [Z.to_nat repeat app]. now rewrite ?app_nil_r. }
  rewrite E. replace (Z.max 0 (6 + zlen f - 6)) with (zlen f) by lia || idtac.
  eapply RT_conv.
  - eapply RT_bind; [apply RT_u32; assumption|]. eapply RT_bind; [apply RT_u16; range|]. cbv beta.
    replace (Z.max 0 (6 + zlen f - 6)) with (zlen f) by lia.
    eapply RT_bind; [apply RT_slice; reflexivity|]. cbv beta. apply RT_ret.
  - reflexivity.
  - reflexivity.
  - lia.
Qed.
Lemma RT_attribute_record_set m s : wf_AttributeRecordSet s -> Forall ar_ok (as_records s) -> size_attribute_record_set s < 65536 ->
  RT (w_attribute_record_set m s) p_attribute_record_set s (size_attribute_record_set s) (size_attribute_record_set s).
Proof.
  intros [He Hw] Hok Hs. pose proof (size_attribute_set_bound s) as Hb. pose proof (zlen_nonneg (as_records s)).
  destruct s as [e l]; unfold w_attribute_record_set, p_attribute_record_set, size_attribute_record_set in *; cbn [as_entity_id as_records] in *.
  rewrite Z.mod_small by lia.
  eapply RT_conv.
  - rt_step. rt_step. eapply RT_bind.
    + apply RT_wmap_sum with (len := size_attribute_record); [reflexivity| |lia].
      rewrite Forall_forall in Hw, Hok. intros r Hr. apply RT_attribute_record; auto.
      enough (size_attribute_record r <= zsum (map size_attribute_record l)) by lia.
      apply zsum_elt_le; [|exact Hr]. intros y _. pose proof (size_attribute_record_bound y); lia.
    + cbv beta. apply RT_pure_end, add16_ok. lia.
  - reflexivity.
  - lia.
  - lia.
Qed.
Lemma RT_attribute m x : wf_Attribute x -> fits_attribute x -> RT (w_attribute m x) p_attribute_body x (size_attribute x) (size_attribute x).
Proof.
  destruct x; unfold wf_Attribute, fits_attribute, size_attribute, w_attribute, p_attribute_body;
  cbn [Attribute_address Attribute_pdu_type Attribute_version Attribute_master_type Attribute_action_code Attribute_sets].
  intros Hw [Hs Hok]; wfd.
  pose proof (zsum_lower size_attribute_record_set 8 Attribute_sets0) as Hlow.
  assert (Hb : forall s, 8 <= size_attribute_record_set s) by (intros s; pose proof (size_attribute_set_bound s); pose proof (zlen_nonneg (as_records s)); lia).
  specialize (Hlow (fun s _ => Hb s)). pdu_facts; pdu_mods.
  eapply RT_conv.
  - do 9 rt_step. eapply RT_bind.
    + apply RT_wmap_sum with (len := size_attribute_record_set); [reflexivity| |lia].
      intros s Hi. assert (size_attribute_record_set s <= zsum (map size_attribute_record_set Attribute_sets0)).
      { apply zsum_elt_le; [|exact Hi]. intros y _. specialize (Hb y); lia. }
      rewrite Forall_forall in *. apply RT_attribute_record_set; auto. lia.
    + cbv beta. apply RT_pure_end, add16_ok. lia.
  - reflexivity.
  - lia.
  - lia.
Qed.
Lemma Ext_attribute_record : Ext p_attribute_record. Proof. unfold p_attribute_record; ext. Qed.
Global Hint Resolve Ext_attribute_record : ext.
Lemma Ext_attribute_record_set : Ext p_attribute_record_set. Proof. unfold p_attribute_record_set; ext. Qed.
Global Hint Resolve Ext_attribute_record_set : ext.
Lemma Ext_attribute : Ext p_attribute_body. Proof. unfold p_attribute_body; ext. Qed.
Lemma Safe_attribute_record : Safe p_attribute_record. Proof. unfold p_attribute_record; safe. Qed.
Global Hint Resolve Safe_attribute_record : safe.
Lemma Safe_attribute_record_set : Safe p_attribute_record_set. Proof. unfold p_attribute_record_set; safe. Qed.
Global Hint Resolve Safe_attribute_record_set : safe.
Lemma Safe_attribute : Safe p_attribute_body. Proof. unfold p_attribute_body; safe. Qed.
Lemma len_attribute_ok m x : fits_attribute x -> len_attribute m x = WOk [] (size_attribute x).
Proof.
  unfold fits_attribute, len_attribute, size_attribute. intros [Hs Hok].
  assert (Hb : forall s, 8 <= size_attribute_record_set s) by (intros s; pose proof (size_attribute_set_bound s); pose proof (zlen_nonneg (as_records s)); lia).
  rewrite Forall_forall in Hok.
  pose proof (zsum_map_nonneg size_attribute_record_set (Attribute_sets x) ltac:(intros y _; specialize (Hb y); lia)).
  rewrite wmap_sum_pure with (len := size_attribute_record_set); [| |lia].
  - unfold wbind. rewrite add16_ok by lia. reflexivity.
  - intros s Hi. split; [|specialize (Hb s); lia].
    assert (size_attribute_record_set s <= zsum (map size_attribute_record_set (Attribute_sets x))).
    { apply zsum_elt_le; [|exact Hi]. intros y _. specialize (Hb y); lia. }
    unfold size_attribute_record_set in *.
    pose proof (zsum_map_nonneg size_attribute_record (as_records s) ltac:(intros y _; pose proof (size_attribute_record_bound y); lia)).
    rewrite wmap_sum_pure with (len := size_attribute_record); [| |lia].
    + unfold wbind. rewrite add16_ok by lia. reflexivity.
    + intros r Hr. pose proof (size_attribute_record_bound r). split; [|lia].
      assert (size_attribute_record r <= zsum (map size_attribute_record (as_records s))).
      { apply zsum_elt_le; [|exact Hr]. intros y _. pose proof (size_attribute_record_bound y); lia. }
      specialize (Hok s Hi). rewrite Forall_forall in Hok. rewrite (ar_ok_size r (Hok r Hr)) in *.
      pose proof (zlen_nonneg (ar_fields r)). rewrite Z.mod_small by lia. apply add16_ok. lia.
Qed.

(** ** Signal *)
(* common/signal/model.rs:64-70; the class is stored beside the variant *)
Inductive EncodingScheme :=
| EsEncodedAudio (class ty : Z)
| EsRawBinary (class nr : Z)
| EsAppSpecific (class user_protocol : Z)
| EsDatabaseIndex (class index offset duration : Z)
| EsUnspecified (class : Z).
(* common/signal/model.rs:13-21 *)
Record Signal := MkSignal {
  Signal_radio_reference_id : EntityId; Signal_radio_number : Z; Signal_encoding_scheme : EncodingScheme;
  Signal_tdl_type : Z; Signal_sample_rate : Z; Signal_samples : Z; Signal_data : list Z }.
Definition wf_EncodingScheme (s : EncodingScheme) : Prop := match s with
  | EsEncodedAudio c t => u16 c /\ u16 t
  | EsRawBinary c n => u16 c /\ u16 n
  | EsAppSpecific c u => u16 c /\ u32 u
  | EsDatabaseIndex c i o d => u16 c /\ u32 i /\ u32 o /\ u32 d
  | EsUnspecified c => u16 c end.
Definition wf_Signal (x : Signal) : Prop :=
  wf_EntityId (Signal_radio_reference_id x) /\ u16 (Signal_radio_number x) /\ wf_EncodingScheme (Signal_encoding_scheme x) /\
  u16 (Signal_tdl_type x) /\ u32 (Signal_sample_rate x) /\ u16 (Signal_samples x) /\ bytes (Signal_data x).
(** [&data[a..b]] panics when the slice is shorter than b *)
Definition slice_u32 (data : list Z) (a b : Z) : bparser Z := fun i =>
  if zlen data <? b then PPanic else POk i (be_val (firstn (Z.to_nat (b - a)) (skipn (Z.to_nat a) data))).
(* common/signal/parser.rs:36-77 *)
Definition p_encoding_scheme (v : Z) (data : list Z) : bparser EncodingScheme :=
  let class := v / 16384 in
  let low := v mod 16384 in
  match class with
  | 0 => pret (EsEncodedAudio class low)
  | 1 => pret (EsRawBinary class low)
  | 2 => (u <- slice_u32 data 0 4;; pret (EsAppSpecific class u))%parse
  | 3 => (i <- slice_u32 data 0 4;; o <- slice_u32 data 4 8;; d <- slice_u32 data 8 12;; pret (EsDatabaseIndex class i o d))%parse
  | _ => pret (EsUnspecified class)
  end.
(* common/signal/parser.rs:9-34 *)
Definition p_signal_body : bparser Signal :=
  (a <- p_entity_id;; rn <- be_u16;; es <- be_u16;; tdl <- be_u16;; sr <- be_u32;; bits <- be_u16;; sm <- be_u16;;
   data <- take (bits / 8);; e <- p_encoding_scheme es data;;
   pret (MkSignal a rn e tdl sr sm data))%parse.
(* common/signal/writer.rs:26-57 *)
Definition w_encoding_scheme (s : EncodingScheme) : W Z :=
  match s with
  | EsEncodedAudio c t => (put_u16 (Z.lor ((c * 16384) mod 65536) t);; wret 2)%write
  | EsRawBinary c n => (put_u16 (Z.lor ((c * 16384) mod 65536) n);; wret 2)%write
  | EsAppSpecific c _ => (put_u16 ((c * 16384) mod 65536);; wret 2)%write
  | EsDatabaseIndex c _ _ _ => (put_u16 ((c * 16384) mod 65536);; wret 2)%write
  | EsUnspecified c => (put_u16 ((c * 16384) mod 65536);; wret 2)%write
  end.
(* common/signal/writer.rs:7-24 *)
Definition w_signal (m : mode) (x : Signal) : W Z :=
  (a <- w_entity_id (Signal_radio_reference_id x);; put_u16 (Signal_radio_number x);;
   e <- w_encoding_scheme (Signal_encoding_scheme x);;
   put_u16 (Signal_tdl_type x);; put_u32 (Signal_sample_rate x);;
   put_u16 ((zlen (Signal_data x) * 8) mod 65536);; put_u16 (Signal_samples x);;
   put_slice (Signal_data x);;
   pl <- w_padded (zlen (Signal_data x)) 4;;
   put_bytes 0 (pl_padding pl);;
   add16 m (a + 2 + e + 10) (pl_record pl mod 65536))%write.
(* common/signal/model.rs:37-43 *)
Definition len_signal (m : mode) (x : Signal) : W Z :=
  (pl <- w_padded (zlen (Signal_data x)) 4;; add16 m 20 (pl_record pl mod 65536))%write.
Definition size_signal (x : Signal) : Z := 20 + zlen (Signal_data x) + pad_to (zlen (Signal_data x)) 4.
(** the encoding scheme a signal can carry on the wire: class matching the variant, type in 14 bits,
    the ids of classes 2 and 3 repeated at the start of the data *)
Definition es_ok (data : list Z) (s : EncodingScheme) : Prop := match s with
  | EsEncodedAudio c t => c = 0 /\ t < 16384
  | EsRawBinary c n => c = 1 /\ n < 16384
  | EsAppSpecific c u => c = 2 /\ exists tl, data = be 4 u ++ tl
  | EsDatabaseIndex c i o d => c = 3 /\ exists tl, data = be 4 i ++ be 4 o ++ be 4 d ++ tl
  | EsUnspecified c => False end.
(** data of a whole number of 32-bit words: the parser does not skip padding *)
Definition fits_signal (x : Signal) : Prop :=
  zlen (Signal_data x) < 8192 /\ zlen (Signal_data x) mod 4 = 0 /\ es_ok (Signal_data x) (Signal_encoding_scheme x).
(* common/signal/model.rs:50-58 *)
Definition orig_signal (x : Signal) : option EntityId := Some (Signal_radio_reference_id x).
Definition recv_signal (x : Signal) : option EntityId := None.
(** inputs on which the parser indexes past the end of the data it took:
    a class 2 (3) signal announcing fewer than 4 (12) octets of data *)
Definition signal_short (i : list Z) : Prop :=
  exists a rn es tdl sr bits sm r1 r2 r3 r4 r5 r6 r7, p_entity_id i = POk r1 a /\ be_u16 r1 = POk r2 rn /\ be_u16 r2 = POk r3 es /\
    be_u16 r3 = POk r4 tdl /\ be_u32 r4 = POk r5 sr /\ be_u16 r5 = POk r6 bits /\ be_u16 r6 = POk r7 sm /\
    bits / 8 <= zlen r7 /\ ((es / 16384 = 2 /\ bits / 8 < 4) \/ (es / 16384 = 3 /\ bits / 8 < 12)).
Lemma slice_at pre v tl a b i : a = zlen pre -> b = a + 4 -> u32 v -> slice_u32 (pre ++ be 4 v ++ tl) a b i = POk i v.
Proof.
  intros -> -> Hv. unfold slice_u32. rewrite !zlen_app, be_zlen. pose proof (zlen_nonneg tl).
  destruct (Z.ltb_spec (zlen pre + (Z.of_nat 4 + zlen tl)) (zlen pre + 4)); [lia|].
  replace (zlen pre + 4 - zlen pre) with 4 by lia. change (Z.to_nat 4) with 4%nat.
  unfold zlen. rewrite Nat2Z.id, skipn_app_exact by reflexivity. rewrite firstn_app_exact by apply be_length.
  rewrite be_val_be; [reflexivity|]. change (256 ^ Z.of_nat 4) with 4294967296. exact Hv.
Qed.
Lemma wval_es data s : wf_EncodingScheme s -> es_ok data s -> exists v, w_encoding_scheme s = (put_u16 v;; wret 2)%write /\ u16 v /\
   forall i, p_encoding_scheme v data i = POk i s.
Proof.
  intros Hw Hok.
  assert (Hlor : forall t, 0 <= t < 16384 -> Z.lor 16384 t = 16384 + t).
  { intros t Ht. rewrite <- Z.lxor_lor, <- Z.add_nocarry_lxor; try reflexivity.
    all: apply Z.bits_inj'; intros n Hn; rewrite Z.land_spec, Z.bits_0;
      change 16384 with (2 ^ 14); rewrite Z.pow2_bits_eqb by lia;
      destruct (Z.eqb_spec 14 n) as [<-|]; [|reflexivity]; cbn [andb];
      rewrite <- (Z.mod_small t (2^14)) by lia; apply Z.mod_pow2_bits_high; lia. }
  destruct s as [c t|c n|c u|c ix o d|c]; cbn [es_ok wf_EncodingScheme] in *; wfd; subst; cbn [w_encoding_scheme].
  - exists t. split; [reflexivity|]. split; [assumption|]. intros i. unfold p_encoding_scheme, u16 in *.
    rewrite Z.div_small, Z.mod_small by lia. reflexivity.
  - exists (16384 + n). change (1 * 16384 mod 65536) with 16384. unfold u16 in *. rewrite Hlor by lia.
    split; [reflexivity|]. split; [lia|]. intros i. unfold p_encoding_scheme.
    replace (16384 + n) with (n + 1 * 16384) by lia. rewrite Z.div_add, Z.mod_add, Z.div_small, Z.mod_small by lia. reflexivity.
  - exists 32768. split; [reflexivity|]. split; [unfold u16; lia|]. match goal with H : exists _, data = _ |- _ => destruct H as [tl ->] end. intros i.
    unfold p_encoding_scheme. change (32768 / 16384) with 2. cbv zeta match. unfold pbind.
    change (be 4 u ++ tl) with ([] ++ be 4 u ++ tl). rewrite slice_at by (reflexivity || assumption). reflexivity.
  - exists 49152. split; [reflexivity|]. split; [unfold u16; lia|]. match goal with H : exists _, data = _ |- _ => destruct H as [tl ->] end. intros i.
    unfold p_encoding_scheme. change (49152 / 16384) with 3. cbv zeta match. unfold pbind.
    pose proof (slice_at [] ix (be 4 o ++ be 4 d ++ tl) 0 4 i eq_refl eq_refl H2) as E0. cbn [app] in E0. rewrite E0.
    rewrite (slice_at (be 4 ix)) by (reflexivity || assumption).
    rewrite app_assoc. rewrite (slice_at (be 4 ix ++ be 4 o)) by (reflexivity || assumption). reflexivity.
  - contradiction.
Qed.
Lemma RT_signal m x : wf_Signal x -> fits_signal x -> RT (w_signal m x) p_signal_body x (size_signal x) (size_signal x).
Proof.
  destruct x as [a rn es tdl sr sm data]; unfold wf_Signal, fits_signal, size_signal, w_signal, p_signal_body;
  cbn [Signal_radio_reference_id Signal_radio_number Signal_encoding_scheme Signal_tdl_type Signal_sample_rate Signal_samples Signal_data].
  intros Hw (Hl & Hm & Hes); wfd. pose proof (zlen_nonneg data).
  destruct (wval_es data es) as (v & Ew & Hv & Hp); [assumption|assumption|]. rewrite Ew.
  rewrite pad_to_aligned by (lia || assumption). rewrite !Z.mod_small by lia.
  rewrite Z.add_0_r.
  match goal with |- RT ?w _ _ _ _ =>
    assert (E : w = (a0 <- w_entity_id a;; put_u16 rn;; put_u16 v;; put_u16 tdl;; put_u32 sr;; put_u16 (zlen data * 8);; put_u16 sm;; put_slice data;; wret (20 + zlen data))%write) end.
  { destruct (RT_entity_id a) as (ba & Ea & _); [assumption|]. rewrite Ea, w_padded_ok by lia.
    rewrite pad_to_aligned by (lia || assumption).
    unfold put_u32, put_u16, put_slice, put_bytes, put, wbind, wret. cbn [Z.to_nat repeat app pl_padding pl_record].
    rewrite Z.add_0_r, Z.mod_small by lia. rewrite add16_ok by lia. rewrite ?app_nil_r. reflexivity. }
  rewrite E. eapply RT_conv.
  - do 7 rt_step. rewrite Z.div_mul by lia. eapply RT_bind; [apply RT_slice; reflexivity|]. cbv beta.
    eapply RT_ppure; [exact Hp|]. apply RT_ret.
  - reflexivity.
  - reflexivity.
  - lia.
Qed.
Lemma Ext_slice_u32 d a b : Ext (slice_u32 d a b).
Proof. intros i r x H. unfold slice_u32 in *. destruct (zlen d <? b); [discriminate|]. inversion H; subst. split; [exists []; reflexivity|reflexivity]. Qed.
Lemma Ext_encoding_scheme v d : Ext (p_encoding_scheme v d).
Proof. unfold p_encoding_scheme; cbv zeta. repeat first [apply Ext_slice_u32 | ext_step]. Qed.
Global Hint Resolve Ext_encoding_scheme : ext.
Lemma Ext_signal : Ext p_signal_body. Proof. unfold p_signal_body; ext. Qed.
Lemma len_signal_ok m x : fits_signal x -> len_signal m x = WOk [] (size_signal x).
Proof.
  unfold fits_signal, len_signal, size_signal. intros; wfd. pose proof (zlen_nonneg (Signal_data x)).
  rewrite w_padded_ok by lia. unfold wbind. cbn [pl_record]. rewrite pad_to_aligned by (lia || assumption).
  rewrite Z.add_0_r, Z.mod_small by lia. rewrite add16_ok by lia. cbn [app]. f_equal. lia.
Qed.
(** the only panic: a short signal *)
Lemma signal_panic i : bytes i -> p_signal_body i = PPanic -> signal_short i.
Proof.
  intros Hi. unfold p_signal_body, pbind.
  pose proof (Safe_entity_id i Hi) as S1. destruct (p_entity_id i) as [r1 a| |] eqn:E1; try discriminate; [|contradiction]. destruct S1 as [S1 _].
  pose proof (Safe_be_u16 r1 S1) as S2. destruct (be_u16 r1) as [r2 rn| |] eqn:E2; try discriminate; [|contradiction]. destruct S2 as [S2 _].
  pose proof (Safe_be_u16 r2 S2) as S3. destruct (be_u16 r2) as [r3 es| |] eqn:E3; try discriminate; [|contradiction]. destruct S3 as [S3 Hes].
  pose proof (Safe_be_u16 r3 S3) as S4. destruct (be_u16 r3) as [r4 tdl| |] eqn:E4; try discriminate; [|contradiction]. destruct S4 as [S4 _].
  pose proof (Safe_be_u32 r4 S4) as S5. destruct (be_u32 r4) as [r5 sr| |] eqn:E5; try discriminate; [|contradiction]. destruct S5 as [S5 _].
  pose proof (Safe_be_u16 r5 S5) as S6. destruct (be_u16 r5) as [r6 bits| |] eqn:E6; try discriminate; [|contradiction]. destruct S6 as [S6 Hbits].
  pose proof (Safe_be_u16 r6 S6) as S7. destruct (be_u16 r6) as [r7 sm| |] eqn:E7; try discriminate; [|contradiction]. destruct S7 as [S7 _].
  assert (Hb8 : 0 <= bits / 8) by (unfold u16 in *; apply Z.div_pos; lia).
  unfold take. destruct (Z.ltb_spec (zlen r7) (bits / 8)) as [|Hlen]; [discriminate|].
  set (data := firstn (Z.to_nat (bits / 8)) r7).
  assert (Hd : zlen data = bits / 8). { unfold data, zlen in *. rewrite firstn_length_le; lia. }
  intros H. exists a, rn, es, tdl, sr, bits, sm, r1, r2, r3, r4, r5, r6, r7. repeat split; auto.
  unfold p_encoding_scheme in H. cbv zeta in H. unfold u16 in *.
  assert (Hc : 0 <= es / 16384 < 4) by (split; [apply Z.div_pos; lia|apply Z.div_lt_upper_bound; lia]).
  unfold slice_u32, pbind, pret in H. rewrite Hd in H.
  destruct (Z.eq_dec (es / 16384) 0) as [E|]; [rewrite E in H; discriminate|].
  destruct (Z.eq_dec (es / 16384) 1) as [E|]; [rewrite E in H; discriminate|].
  destruct (Z.eq_dec (es / 16384) 2) as [E|].
  { left. split; [exact E|]. rewrite E in H. destruct (Z.ltb_spec (bits / 8) 4); [assumption|discriminate]. }
  right. assert (E : es / 16384 = 3) by lia. split; [exact E|]. rewrite E in H.
  destruct (Z.ltb_spec (bits / 8) 4); [lia|]. destruct (Z.ltb_spec (bits / 8) 8); [lia|].
  destruct (Z.ltb_spec (bits / 8) 12); [assumption|discriminate].
Qed.

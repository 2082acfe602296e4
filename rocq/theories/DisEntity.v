(** Markings, capabilities, dead reckoning, EntityState and AggregateState.
    Sources: /repo/dis-rs/src/common/{entity_state,aggregate_state}/, v6/entity_state, v7/entity_state. *)
From Verif Require Export Utf8.
From Verif Require Import Base DisCommon DisLists DisWarfare.

(** * SupportedVersion *)
(* common/model.rs, From<ProtocolVersion> for SupportedVersion (common/mod.rs SupportedVersion): 6 and 7 are supported *)
Inductive SupportedVersion := V6 | V7 | Unsupported.
Definition supported_version (protocol_version : Z) : SupportedVersion :=
  if protocol_version =? 6 then V6 else if protocol_version =? 7 then V7 else Unsupported.

(** * Markings
    A String is its UTF-8 octets; [sanitize_marking], String::from_utf8_lossy and the character classes are in Utf8.v. *)
(* common/entity_state/model.rs:143-146, common/aggregate_state/model.rs:97-100 *)
Record Marking := MkMarking { mk_charset : Z; mk_string : list Z }.
Definition wf_Marking (x : Marking) : Prop := u8 (mk_charset x) /\ bytes (mk_string x).
(* common/entity_state/parser.rs:75-87 with n = 11, common/aggregate_state/parser.rs:88-100 with n = 31 *)
Definition p_marking (n : Z) : bparser Marking :=
  (c <- be_u8;; buf <- take n;; pret (MkMarking c (sanitize_marking buf)))%parse.
(* common/entity_state/writer.rs:126-136 with n = 11, common/aggregate_state/writer.rs:66-77 with n = 31;
   [n - len] on usize panics (debug) or becomes 2^64-k paddings (release), which never returns: both are WPanic *)
Definition w_marking (n : Z) (x : Marking) : W Z :=
  if n <? zlen (mk_string x) then wpanic
  else (put_u8 (mk_charset x);; put_slice (mk_string x);; put_bytes 32 (n - zlen (mk_string x));; wret (n + 1))%write.
Definition ascii (l : list Z) : Prop := Forall (fun c => 0 <= c < 128) l.
(** markings that survive: at most n octets of UTF-8, the last character alphanumeric *)
Definition marking_ok (n : Z) (x : Marking) : Prop :=
  zlen (mk_string x) <= n /\ exists s, Forall scalar s /\ mk_string x = utf8_encode s /\ ends_alnum s.

Lemma RT_marking n x : wf_Marking x -> marking_ok n x -> RT (w_marking n x) (p_marking n) x (n + 1) (n + 1).
Proof.
  destruct x as [c s]; unfold wf_Marking, marking_ok, w_marking; cbn [mk_charset mk_string]. intros [Hc Hb] (Hl & str & Hs & Es & He).
  pose proof (zlen_nonneg s).
  destruct (Z.ltb_spec n (zlen s)); [lia|].
  exists (be 1 c ++ s ++ repeat 32 (Z.to_nat (n - zlen s))).
  split; [unfold put_u8, put, put_slice, put_bytes, wbind, wret; rewrite app_nil_r; reflexivity|].
  split; [rewrite !zlen_app, be_zlen, zlen_repeat; lia|].
  intros rest. unfold p_marking, pbind. rewrite <- !app_assoc. unfold be_u8. rewrite be_u_be by (unfold u8 in *; cbn; lia).
  rewrite (app_assoc s). rewrite take_app; [|rewrite zlen_app, zlen_repeat; lia].
  rewrite Es at 1. rewrite sanitize_padded by (assumption || lia || reflexivity). now rewrite <- Es.
Qed.
Lemma Ext_marking n : Ext (p_marking n). Proof. unfold p_marking; ext. Qed.
Global Hint Resolve Ext_marking : ext.
Lemma Safe_marking n : 0 <= n -> Safe (p_marking n).
Proof. intros. unfold p_marking; safe. Qed.
Lemma w_marking_len n x : zlen (mk_string x) <= n -> exists bs, w_marking n x = WOk bs (n + 1) /\ zlen bs = n + 1.
Proof.
  intros H. unfold w_marking. destruct (Z.ltb_spec n (zlen (mk_string x))); [lia|].
  unfold put_u8, put, put_slice, put_bytes, wbind, wret. eexists. split; [reflexivity|].
  pose proof (zlen_nonneg (mk_string x)). rewrite !zlen_app, be_zlen, zlen_repeat, zlen_nil. lia.
Qed.

(** * Capabilities
    enumerations::EntityCapabilities has a variant per (kind, domain) wrapping a generated bit field. As for
    appearances a variant carries its 32-bit word. Ammunition supply, fuel supply, recovery and repair are the
    SISO bits 0-3, i.e. the four most significant bits of the word (build.rs:1027: shift = size - length - position). *)
Record EntityCapabilities := MkCapabilities { ec_kind : AppearanceKind; ec_word : Z }.
Definition wf_EntityCapabilities (c : EntityCapabilities) : Prop := u32 (ec_word c).
(* v7/entity_state/mod.rs:8-26 *)
Definition capabilities_from_bytes (w kind domain : Z) : EntityCapabilities :=
  if kind =? 0 then MkCapabilities AUnspecified 0 else MkCapabilities (appearance_kind kind domain) w.
(* common/entity_state/compatibility.rs:4-136 (v7 to v6), then v6/entity_state/writer.rs:5-15 *)
Definition v6_word (c : EntityCapabilities) : Z :=
  match ec_kind c with
  | ALand | AAir | ASurface | ASubsurface | ASpace | ALifeForms => (ec_word c / 268435456) * 268435456
  | ASupply => (ec_word c / 1073741824) * 1073741824
  | AMunition | AEnvironmental | ACultural | ARadio | AExpendable | ASensorEmitter | AUnspecified => 0
  end.
(* common/entity_state/parser.rs:28-38, v6/entity_state/parser.rs:8-28 (four flags, 28 padding bits),
   compatibility.rs:138-152 (v6 to v7: always the land platform variant), v7/entity_state/parser.rs:7-14 *)
Definition p_capabilities (version kind domain : Z) : bparser EntityCapabilities :=
  if version =? 7 then (w <- be_u32;; pret (capabilities_from_bytes w kind domain))%parse
  else (w <- be_u32;; pret (MkCapabilities ALand ((w / 268435456) * 268435456)))%parse.
(* common/entity_state/writer.rs:22-34 *)
Definition w_capabilities (version : SupportedVersion) (c : EntityCapabilities) : W Z :=
  match version with
  | V6 => (put_u32 (v6_word c);; wret 4)%write
  | V7 => (put_u32 (ec_word c);; wret 4)%write
  | Unsupported => (put_u32 0;; wret 4)%write
  end.
Definition capabilities_ok (version kind domain : Z) (c : EntityCapabilities) : Prop :=
  if version =? 7 then (if kind =? 0 then c = MkCapabilities AUnspecified 0 else ec_kind c = appearance_kind kind domain)
  else ec_kind c = ALand /\ (if version =? 6 then ec_word c mod 268435456 = 0 else ec_word c = 0).
Lemma RT_capabilities v k d c : wf_EntityCapabilities c -> capabilities_ok v k d c ->
  RT (w_capabilities (supported_version v) c) (p_capabilities v k d) c 4 4.
Proof.
  destruct c as [ck w]; unfold wf_EntityCapabilities, capabilities_ok, supported_version, p_capabilities; cbn [ec_kind ec_word].
  intros Hw. destruct (Z.eqb_spec v 7) as [->|N7].
  - change (7 =? 6) with false. cbv iota. cbn [w_capabilities ec_word]. intros Hok. unfold capabilities_from_bytes.
    destruct (k =? 0).
    + injection Hok as -> ->. rt.
    + subst. rt.
  - intros [-> H]. destruct (Z.eqb_spec v 6) as [->|N6].
    + cbn [w_capabilities v6_word ec_kind ec_word].
      assert (E : w / 268435456 * 268435456 = w) by (pose proof (Z.div_mod w 268435456); lia). rewrite E.
      eapply RT_conv; [do 3 rt_step|now rewrite E|reflexivity|reflexivity].
    + cbn [w_capabilities]. subst. rt.
Qed.
Lemma Ext_capabilities v k d : Ext (p_capabilities v k d). Proof. unfold p_capabilities; ext. Qed.
Lemma Safe_capabilities v k d : Safe (p_capabilities v k d). Proof. unfold p_capabilities; safe. Qed.
Global Hint Resolve Ext_capabilities : ext. Global Hint Resolve Safe_capabilities : safe.
Lemma w_capabilities_len v c : exists bs, w_capabilities v c = WOk bs 4 /\ zlen bs = 4.
Proof. destruct v; cbn; unfold put_u32, put, wbind, wret; eexists; (split; [reflexivity|]); rewrite app_nil_r, be_zlen; reflexivity. Qed.

(** * Dead reckoning parameters *)
(* common/entity_state/model.rs:227-231, 241-245, 266-271, 196-201 *)
Inductive DrOtherParameters :=
| DrNone (b : list Z)
| DrEuler (yaw pitch roll : Z)
| DrQuaternion (nil x y z : Z).
Record DrParameters := MkDr { dr_algorithm : Z; dr_other : DrOtherParameters; dr_acceleration : VectorF32; dr_velocity : VectorF32 }.
(* None holds a [u8; 15] *)
Definition wf_DrOther (d : DrOtherParameters) : Prop := match d with
  | DrNone b => bytes b /\ zlen b = 15
  | DrEuler a b c => u32 a /\ u32 b /\ u32 c
  | DrQuaternion n x y z => u16 n /\ u32 x /\ u32 y /\ u32 z end.
Definition wf_Dr (d : DrParameters) : Prop :=
  u8 (dr_algorithm d) /\ wf_DrOther (dr_other d) /\ wf_VectorF32 (dr_acceleration d) /\ wf_VectorF32 (dr_velocity d).
Definition dr_is_euler (a : Z) : bool := existsb (Z.eqb a) [1;2;5;6;9].
Definition dr_is_quaternion (a : Z) : bool := existsb (Z.eqb a) [3;4;7;8].
(* common/entity_state/parser.rs:129-154, 156-159, 161-172, 174-187 *)
Definition p_dr_other (alg : Z) : bparser DrOtherParameters :=
  if dr_is_euler alg then (_ <- be_u8;; _ <- be_u16;; a <- be_f32;; b <- be_f32;; c <- be_f32;; pret (DrEuler a b c))%parse
  else if dr_is_quaternion alg then
    (_ <- be_u8;; n <- be_u16;; x <- be_f32;; y <- be_f32;; z <- be_f32;; pret (DrQuaternion n x y z))%parse
  else (b <- take 15;; pret (DrNone b))%parse.
(* common/entity_state/parser.rs:89-127 *)
Definition p_dr_parameters : bparser DrParameters :=
  (a <- be_u8;; o <- p_dr_other a;; acc <- p_vec3_f32;; v <- p_vec3_f32;; pret (MkDr a o acc v))%parse.
(* common/entity_state/writer.rs:68-81, 83-92, 94-103 *)
Definition w_dr_other (d : DrOtherParameters) : W Z :=
  match d with
  | DrNone b => (put_slice b;; wret 15)%write
  | DrEuler a b c => (put_u8 1;; put_u16 0;; put_f32 a;; put_f32 b;; put_f32 c;; wret 15)%write
  | DrQuaternion n x y z => (put_u8 2;; put_u16 n;; put_f32 x;; put_f32 y;; put_f32 z;; wret 15)%write
  end.
(* common/entity_state/writer.rs:58-66 *)
Definition w_dr_parameters (d : DrParameters) : W Z :=
  (put_u8 (dr_algorithm d);; o <- w_dr_other (dr_other d);; a <- w_vector_f32 (dr_acceleration d);;
   v <- w_vector_f32 (dr_velocity d);; wret (1 + o + a + v))%write.
(** the variant agrees with the algorithm *)
Definition dr_ok (d : DrParameters) : Prop :=
  match dr_other d with
  | DrNone _ => dr_is_euler (dr_algorithm d) = false /\ dr_is_quaternion (dr_algorithm d) = false
  | DrEuler _ _ _ => dr_is_euler (dr_algorithm d) = true
  | DrQuaternion _ _ _ _ => dr_is_euler (dr_algorithm d) = false /\ dr_is_quaternion (dr_algorithm d) = true
  end.
Lemma RT_dr_other alg d : wf_DrOther d ->
  match d with
  | DrNone _ => dr_is_euler alg = false /\ dr_is_quaternion alg = false
  | DrEuler _ _ _ => dr_is_euler alg = true
  | DrQuaternion _ _ _ _ => dr_is_euler alg = false /\ dr_is_quaternion alg = true
  end -> RT (w_dr_other d) (p_dr_other alg) d 15 15.
Proof.
  destruct d; cbn [wf_DrOther]; intros; wfd; unfold p_dr_other, w_dr_other.
  - rewrite H0, H1. eapply RT_conv; [eapply RT_bind; [apply RT_slice with (n := 15); symmetry; assumption|]; cbv beta; apply RT_ret| | |]; reflexivity.
  - rewrite H0. rt.
  - rewrite H0, H1. rt.
Qed.
Lemma RT_dr d : wf_Dr d -> dr_ok d -> RT (w_dr_parameters d) p_dr_parameters d 40 40.
Proof.
  destruct d; unfold wf_Dr, dr_ok, w_dr_parameters, p_dr_parameters; cbn [dr_algorithm dr_other dr_acceleration dr_velocity]; intros; wfd.
  eapply RT_conv; [rt_step; eapply RT_bind; [apply RT_dr_other; eassumption|]; cbv beta; repeat rt_step| | |]; try reflexivity.
Qed.
Lemma Ext_dr_other a : Ext (p_dr_other a). Proof. unfold p_dr_other; ext. Qed.
Lemma Safe_dr_other a : Safe (p_dr_other a). Proof. unfold p_dr_other; safe. Qed.
Global Hint Resolve Ext_dr_other : ext. Global Hint Resolve Safe_dr_other : safe.
Lemma Ext_dr : Ext p_dr_parameters. Proof. unfold p_dr_parameters; ext. Qed.
Lemma Safe_dr : Safe p_dr_parameters. Proof. unfold p_dr_parameters; safe. Qed.
Global Hint Resolve Ext_dr : ext. Global Hint Resolve Safe_dr : safe.
Lemma Safe_marking_11 : Safe (p_marking 11). Proof. apply Safe_marking; lia. Qed.
Lemma Safe_marking_31 : Safe (p_marking 31). Proof. apply Safe_marking; lia. Qed.
Global Hint Resolve Safe_marking_11 Safe_marking_31 : safe.

(** * EntityState *)
(* common/entity_state/model.rs:21-34 *)
Record EntityState := MkEntityState {
  EntityState_entity_id : EntityId; EntityState_force_id : Z; EntityState_entity_type : EntityType;
  EntityState_alternative_entity_type : EntityType; EntityState_velocity : VectorF32; EntityState_location : Location;
  EntityState_orientation : Orientation; EntityState_appearance : EntityAppearance; EntityState_dr : DrParameters;
  EntityState_marking : Marking; EntityState_capabilities : EntityCapabilities;
  EntityState_variable_parameters : list VariableParameter }.
Definition wf_EntityState (x : EntityState) : Prop :=
  wf_EntityId (EntityState_entity_id x) /\ u8 (EntityState_force_id x) /\ wf_EntityType (EntityState_entity_type x) /\
  wf_EntityType (EntityState_alternative_entity_type x) /\ wf_VectorF32 (EntityState_velocity x) /\
  wf_Location (EntityState_location x) /\ wf_Orientation (EntityState_orientation x) /\
  wf_EntityAppearance (EntityState_appearance x) /\ wf_Dr (EntityState_dr x) /\ wf_Marking (EntityState_marking x) /\
  wf_EntityCapabilities (EntityState_capabilities x) /\ Forall wf_VariableParameter (EntityState_variable_parameters x).
(* common/entity_state/parser.rs:12-56; [version] is header.protocol_version *)
Definition p_entity_state_body (version : Z) : bparser EntityState :=
  (a <- p_entity_id;; f <- be_u8;; n <- be_u8;; t <- p_entity_type;; t2 <- p_entity_type;; v <- p_vec3_f32;;
   l <- p_location;; o <- p_orientation;; ap <- p_entity_appearance (et_kind t) (et_domain t);; dr <- p_dr_parameters;;
   mk <- p_marking 11;; c <- p_capabilities version (et_kind t) (et_domain t);; vps <- p_vps n;;
   pret (MkEntityState a f t t2 v l o ap dr mk c vps))%parse.
(* common/entity_state/writer.rs:9-48 (the summand "+ 40" and the final "+ 4" are in the source) *)
Definition w_entity_state (m : mode) (version : SupportedVersion) (x : EntityState) : W Z :=
  (a <- w_entity_id (EntityState_entity_id x);;
   put_u8 (EntityState_force_id x);;
   put_u8 (zlen (EntityState_variable_parameters x) mod 256);;
   t <- w_entity_type (EntityState_entity_type x);;
   t2 <- w_entity_type (EntityState_alternative_entity_type x);;
   v <- w_vector_f32 (EntityState_velocity x);;
   l <- w_location (EntityState_location x);;
   o <- w_orientation (EntityState_orientation x);;
   ap <- w_entity_appearance (EntityState_appearance x);;
   dr <- w_dr_parameters (EntityState_dr x);;
   mk <- w_marking 11 (EntityState_marking x);;
   c <- w_capabilities version (EntityState_capabilities x);;
   vps <- wmap_sum m (w_variable_parameter m) (EntityState_variable_parameters x);;
   add16 m (a + 1 + 1 + t + t2 + v + l + o + ap + dr + c + 40 + mk + 4) vps)%write.
(* common/entity_state/model.rs:50-53 *)
Definition len_entity_state (m : mode) (x : EntityState) : W Z :=
  (a <- mul16 m 16 (zlen (EntityState_variable_parameters x) mod 65536);; add16 m 132 a)%write.
Definition size_entity_state (x : EntityState) : Z := 132 + 16 * zlen (EntityState_variable_parameters x).
Definition fits_entity_state (version : Z) (x : EntityState) : Prop :=
  zlen (EntityState_variable_parameters x) < 256 /\
  ea_kind (EntityState_appearance x) = appearance_kind (et_kind (EntityState_entity_type x)) (et_domain (EntityState_entity_type x)) /\
  dr_ok (EntityState_dr x) /\ marking_ok 11 (EntityState_marking x) /\
  capabilities_ok version (et_kind (EntityState_entity_type x)) (et_domain (EntityState_entity_type x)) (EntityState_capabilities x) /\
  Forall vp_ok (EntityState_variable_parameters x).
(* common/entity_state/model.rs:60-68 *)
Definition orig_entity_state (x : EntityState) : option EntityId := Some (EntityState_entity_id x).
Definition recv_entity_state (x : EntityState) : option EntityId := None.
Lemma RT_entity_state m version x : wf_EntityState x -> fits_entity_state version x ->
  RT (w_entity_state m (supported_version version) x) (p_entity_state_body version) x (size_entity_state x + 44) (size_entity_state x).
Proof.
  destruct x; unfold wf_EntityState, fits_entity_state, size_entity_state, w_entity_state, p_entity_state_body;
  cbn [EntityState_entity_id EntityState_force_id EntityState_entity_type EntityState_alternative_entity_type EntityState_velocity
    EntityState_location EntityState_orientation EntityState_appearance EntityState_dr EntityState_marking EntityState_capabilities
    EntityState_variable_parameters]; intros; wfd.
  pdu_facts; pdu_mods. eapply RT_conv.
  - do 8 rt_step.
    eapply RT_bind; [apply RT_entity_appearance; assumption|]; cbv beta.
    eapply RT_bind; [apply RT_dr; assumption|]; cbv beta.
    eapply RT_bind; [apply RT_marking; assumption|]; cbv beta.
    eapply RT_bind; [apply RT_capabilities; assumption|]; cbv beta.
    eapply RT_bind; [apply RT_vps'; side|]; cbv beta. repeat pdu_step.
  - reflexivity.
  - lia.
  - lia.
Qed.
Lemma Ext_entity_state v : Ext (p_entity_state_body v). Proof. unfold p_entity_state_body; ext. Qed.
Lemma Safe_entity_state v : Safe (p_entity_state_body v). Proof. unfold p_entity_state_body; safe. Qed.
Lemma len_entity_state_ok m v x : fits_entity_state v x -> len_entity_state m x = WOk [] (size_entity_state x).
Proof. unfold fits_entity_state, len_entity_state, size_entity_state. intros; wfd. pdu_len. Qed.

(** * Sums computed by a parser *)
(** run a computation that writes nothing inside a parser *)
Definition plift {A} (w : W A) : bparser A := fun i => match w with WOk _ a => POk i a | WPanic => PPanic end.
Lemma Ext_plift {A} (w : W A) : Ext (plift w).
Proof. intros i r a H. unfold plift in *. destruct w; [|discriminate]. inversion H; subst. split; [exists []; reflexivity|reflexivity]. Qed.
Global Hint Resolve Ext_plift : ext.

(** * AggregateState *)
(* common/aggregate_state/model.rs:147-155 *)
Record AggregateType := MkAggregateType { ag_kind : Z; ag_domain : Z; ag_country : Z; ag_category : Z; ag_subcategory : Z; ag_specific : Z; ag_extra : Z }.
Definition wf_AggregateType t := u8 (ag_kind t) /\ u8 (ag_domain t) /\ u16 (ag_country t) /\ u8 (ag_category t) /\
  u8 (ag_subcategory t) /\ u8 (ag_specific t) /\ u8 (ag_extra t).
(* common/aggregate_state/parser.rs:63-86 *)
Definition p_aggregate_type : bparser AggregateType :=
  (k <- be_u8;; d <- be_u8;; c <- be_u16;; cat <- be_u8;; sub <- be_u8;; sp <- be_u8;; e <- be_u8;; pret (MkAggregateType k d c cat sub sp e))%parse.
(* common/aggregate_state/writer.rs:52-64 *)
Definition w_aggregate_type (t : AggregateType) : W Z :=
  (put_u8 (ag_kind t);; put_u8 (ag_domain t);; put_u16 (ag_country t);; put_u8 (ag_category t);; put_u8 (ag_subcategory t);;
   put_u8 (ag_specific t);; put_u8 (ag_extra t);; wret 8)%write.
Lemma RT_aggregate_type t : wf_AggregateType t -> RT (w_aggregate_type t) p_aggregate_type t 8 8.
Proof. destruct t; unfold wf_AggregateType, w_aggregate_type, p_aggregate_type; cbn; intros; wfd. rt. Qed.
Global Hint Resolve RT_aggregate_type : rt.
Lemma Ext_aggregate_type : Ext p_aggregate_type. Proof. unfold p_aggregate_type; ext. Qed.
Lemma Safe_aggregate_type : Safe p_aggregate_type. Proof. unfold p_aggregate_type; safe. Qed.
Global Hint Resolve Ext_aggregate_type : ext. Global Hint Resolve Safe_aggregate_type : safe.
(* common/aggregate_state/model.rs:287-290, 310-314 *)
Record SilentAggregate := MkSilentAggregate { sa_number : Z; sa_type : AggregateType }.
Record SilentEntity := MkSilentEntity { se_number : Z; se_type : EntityType; se_appearances : list EntityAppearance }.
Definition wf_SilentAggregate s := u16 (sa_number s) /\ wf_AggregateType (sa_type s).
Definition wf_SilentEntity s := u16 (se_number s) /\ wf_EntityType (se_type s) /\ Forall wf_EntityAppearance (se_appearances s).
(* common/aggregate_state/parser.rs:102-110, 112-122 *)
Definition p_silent_aggregate : bparser SilentAggregate :=
  (n <- be_u16;; _ <- be_u16;; t <- p_aggregate_type;; pret (MkSilentAggregate n t))%parse.
Definition p_silent_entity : bparser SilentEntity :=
  (n <- be_u16;; k <- be_u16;; t <- p_entity_type;; l <- count (p_entity_appearance (et_kind t) (et_domain t)) k;;
   pret (MkSilentEntity n t l))%parse.
(* common/aggregate_state/model.rs:336-343: SilentEntitySystem::record_length = 2 + 8 + 4n *)
Definition len_silent_entity (m : mode) (s : SilentEntity) : W Z :=
  (n <- wmap_sum m (fun _ => wret 4) (se_appearances s);; add16 m 10 n)%write.
(* common/aggregate_state/writer.rs:79-87, 89-100 *)
Definition w_silent_aggregate (s : SilentAggregate) : W Z :=
  (put_u16 (sa_number s);; put_u16 0;; _ <- w_aggregate_type (sa_type s);; wret 12)%write.
Definition w_silent_entity (m : mode) (s : SilentEntity) : W Z :=
  (put_u16 (se_number s);; put_u16 (zlen (se_appearances s) mod 65536);; _ <- w_entity_type (se_type s);;
   _ <- wmap_sum m w_entity_appearance (se_appearances s);; len_silent_entity m s)%write.
Definition size_silent_entity (s : SilentEntity) : Z := 12 + 4 * zlen (se_appearances s).
Definition silent_entity_ok (s : SilentEntity) : Prop :=
  Forall (fun a => ea_kind a = appearance_kind (et_kind (se_type s)) (et_domain (se_type s))) (se_appearances s).
Lemma RT_silent_aggregate s : wf_SilentAggregate s -> RT (w_silent_aggregate s) p_silent_aggregate s 12 12.
Proof. destruct s; unfold wf_SilentAggregate, w_silent_aggregate, p_silent_aggregate; cbn [sa_number sa_type]; intros; wfd. rt. Qed.
Lemma len_silent_entity_ok m s : size_silent_entity s < 65536 -> len_silent_entity m s = WOk [] (size_silent_entity s - 2).
Proof.
  intros H. unfold len_silent_entity, size_silent_entity in *. pose proof (zlen_nonneg (se_appearances s)).
  rewrite wmap_sum_pure with (len := fun _ => 4).
  - rewrite (zsum_const (fun _ => 4) 4) by auto. unfold wbind. rewrite add16_ok by lia. cbn [app]. f_equal. lia.
  - intros; split; [reflexivity|lia].
  - rewrite (zsum_const (fun _ => 4) 4) by auto. lia.
Qed.
Lemma RT_silent_entity m s : wf_SilentEntity s -> silent_entity_ok s -> size_silent_entity s < 65536 ->
  RT (w_silent_entity m s) p_silent_entity s (size_silent_entity s - 2) (size_silent_entity s).
Proof.
  intros Hw Hok Hs. pose proof (len_silent_entity_ok m s Hs) as Hlen.
  destruct s; unfold wf_SilentEntity, silent_entity_ok, w_silent_entity, p_silent_entity, size_silent_entity in *; cbn [se_number se_type se_appearances] in *; wfd.
  rewrite Hlen. pdu_facts; pdu_mods. eapply RT_conv.
  - do 3 rt_step.
    eapply RT_bind; [eapply (RT_const_list m _ _ (fun a => wf_EntityAppearance a /\ ea_kind a = _)); [intros a [? ?]; apply RT_entity_appearance; eassumption|reflexivity| |lia]|].
    + rewrite Forall_forall in *. auto.
    + cbv beta. apply RT_ret.
  - reflexivity.
  - lia.
  - lia.
Qed.
Lemma Ext_silent_aggregate : Ext p_silent_aggregate. Proof. unfold p_silent_aggregate; ext. Qed.
Lemma Ext_silent_entity : Ext p_silent_entity. Proof. unfold p_silent_entity; ext. Qed.
Lemma Safe_silent_aggregate : Safe p_silent_aggregate. Proof. unfold p_silent_aggregate; safe. Qed.
Lemma Safe_silent_entity : Safe p_silent_entity. Proof. unfold p_silent_entity; safe. Qed.
Global Hint Resolve Ext_silent_aggregate Ext_silent_entity : ext. Global Hint Resolve Safe_silent_aggregate Safe_silent_entity : safe.

(* common/aggregate_state/model.rs:55-61: (length including padding, padding) *)
Definition agg_intermediate (m : mode) (aggregates entities : list EntityId) : W (Z * Z) :=
  (a <- wmap_sum m (fun _ => wret 6) aggregates;; s <- add16 m 124 a;;
   e <- wmap_sum m (fun _ => wret 6) entities;; t <- add16 m s e;;
   u <- add16 m t (t mod 4);; wret (u, t mod 4))%write.
(* common/aggregate_state/model.rs:17-33 *)
Record AggregateState := MkAggregateState {
  AggregateState_aggregate_id : EntityId; AggregateState_force_id : Z; AggregateState_aggregate_state : Z;
  AggregateState_aggregate_type : AggregateType; AggregateState_formation : Z; AggregateState_marking : Marking;
  AggregateState_dimensions : VectorF32; AggregateState_orientation : Orientation; AggregateState_center_of_mass : Location;
  AggregateState_velocity : VectorF32; AggregateState_aggregates : list EntityId; AggregateState_entities : list EntityId;
  AggregateState_silent_aggregates : list SilentAggregate; AggregateState_silent_entities : list SilentEntity;
  AggregateState_variable_datums : list VariableDatum }.
Definition wf_AggregateState (x : AggregateState) : Prop :=
  wf_EntityId (AggregateState_aggregate_id x) /\ u8 (AggregateState_force_id x) /\ u8 (AggregateState_aggregate_state x) /\
  wf_AggregateType (AggregateState_aggregate_type x) /\ u32 (AggregateState_formation x) /\ wf_Marking (AggregateState_marking x) /\
  wf_VectorF32 (AggregateState_dimensions x) /\ wf_Orientation (AggregateState_orientation x) /\ wf_Location (AggregateState_center_of_mass x) /\
  wf_VectorF32 (AggregateState_velocity x) /\ Forall wf_EntityId (AggregateState_aggregates x) /\ Forall wf_EntityId (AggregateState_entities x) /\
  Forall wf_SilentAggregate (AggregateState_silent_aggregates x) /\ Forall wf_SilentEntity (AggregateState_silent_entities x) /\
  Forall wf_VariableDatum (AggregateState_variable_datums x).
(* common/aggregate_state/parser.rs:11-61 *)
Definition p_aggregate_state_body (m : mode) : bparser AggregateState :=
  (a <- p_entity_id;; f <- be_u8;; st <- be_u8;; t <- p_aggregate_type;; fo <- be_u32;; mk <- p_marking 31;;
   dm <- p_vec3_f32;; o <- p_orientation;; cm <- p_location;; v <- p_vec3_f32;;
   n1 <- be_u16;; n2 <- be_u16;; n3 <- be_u16;; n4 <- be_u16;;
   ags <- count p_entity_id n1;; ens <- count p_entity_id n2;;
   ip <- plift (agg_intermediate m ags ens);;
   _ <- take (snd ip);;
   sas <- count p_silent_aggregate n3;; ses <- count p_silent_entity n4;;
   nd <- be_u32;; vds <- count p_variable_datum nd;;
   pret (MkAggregateState a f st t fo mk dm o cm v ags ens sas ses vds))%parse.
(* common/aggregate_state/model.rs:63-78 *)
Definition len_aggregate_state (m : mode) (x : AggregateState) : W Z :=
  (ip <- agg_intermediate m (AggregateState_aggregates x) (AggregateState_entities x);;
   a <- wmap_sum m (fun _ => wret 12) (AggregateState_silent_aggregates x);;
   s <- add16 m (fst ip) a;;
   b <- wmap_sum m (len_silent_entity m) (AggregateState_silent_entities x);;
   t <- add16 m s b;;
   c <- len_variable_datums m (AggregateState_variable_datums x);;
   add16 m t c)%write.
(* common/aggregate_state/writer.rs:6-50 *)
Definition w_aggregate_state (m : mode) (x : AggregateState) : W Z :=
  (_ <- w_entity_id (AggregateState_aggregate_id x);;
   put_u8 (AggregateState_force_id x);; put_u8 (AggregateState_aggregate_state x);;
   _ <- w_aggregate_type (AggregateState_aggregate_type x);; put_u32 (AggregateState_formation x);;
   _ <- w_marking 31 (AggregateState_marking x);;
   _ <- w_vector_f32 (AggregateState_dimensions x);; _ <- w_orientation (AggregateState_orientation x);;
   _ <- w_location (AggregateState_center_of_mass x);; _ <- w_vector_f32 (AggregateState_velocity x);;
   put_u16 (zlen (AggregateState_aggregates x) mod 65536);; put_u16 (zlen (AggregateState_entities x) mod 65536);;
   put_u16 (zlen (AggregateState_silent_aggregates x) mod 65536);; put_u16 (zlen (AggregateState_silent_entities x) mod 65536);;
   _ <- wmap_sum m w_entity_id (AggregateState_aggregates x);;
   _ <- wmap_sum m w_entity_id (AggregateState_entities x);;
   ip <- agg_intermediate m (AggregateState_aggregates x) (AggregateState_entities x);;
   put_bytes 0 (snd ip);;
   _ <- wmap_sum m w_silent_aggregate (AggregateState_silent_aggregates x);;
   _ <- wmap_sum m (w_silent_entity m) (AggregateState_silent_entities x);;
   put_u32 (zlen (AggregateState_variable_datums x) mod 4294967296);;
   _ <- wmap_sum m (w_variable_datum m) (AggregateState_variable_datums x);;
   len_aggregate_state m x)%write.
Definition agg_ids_size (x : AggregateState) : Z := 6 * zlen (AggregateState_aggregates x) + 6 * zlen (AggregateState_entities x).
Definition size_aggregate_state (x : AggregateState) : Z :=
  124 + agg_ids_size x + pad_to (agg_ids_size x) 4 + 12 * zlen (AggregateState_silent_aggregates x) +
  zsum (map size_silent_entity (AggregateState_silent_entities x)) + vds_size (AggregateState_variable_datums x).
Definition fits_aggregate_state (x : AggregateState) : Prop :=
  size_aggregate_state x < 65524 /\ marking_ok 31 (AggregateState_marking x) /\
  Forall silent_entity_ok (AggregateState_silent_entities x) /\ Forall vd_ok (AggregateState_variable_datums x).
(* common/aggregate_state/model.rs:85-93 *)
Definition orig_aggregate_state (x : AggregateState) : option EntityId := None.
Definition recv_aggregate_state (x : AggregateState) : option EntityId := None.
Lemma wmap_const_pure {A} m c (l : list A) : 0 <= c -> c * zlen l < 65536 -> wmap_sum m (fun _ => wret c) l = WOk [] (c * zlen l).
Proof.
  intros Hc H. rewrite wmap_sum_pure with (len := fun _ => c); [|intros; split; [reflexivity|lia]|].
  - now rewrite (zsum_const (fun _ => c) c) by auto.
  - now rewrite (zsum_const (fun _ => c) c) by auto.
Qed.
Lemma agg_pad k : 0 <= k -> pad_to (6 * k) 4 = (124 + 6 * k) mod 4.
Proof.
  intros H. unfold pad_to. assert (E : 0 <= k mod 2 < 2) by (apply Z.mod_pos_bound; lia). pose proof (Z.div_mod k 2 ltac:(lia)) as Dm.
  set (q := k / 2) in *. set (r := k mod 2) in *.
  replace (- (6 * k)) with (2 * r + (- 3 * q - 2 * r) * 4) by lia. rewrite Z_mod_plus_full.
  replace (124 + 6 * k) with (2 * r + (31 + 3 * q + r) * 4) by lia. rewrite Z_mod_plus_full. reflexivity.
Qed.
Lemma agg_intermediate_ok m l1 l2 : 124 + 6 * zlen l1 + 6 * zlen l2 < 65530 ->
  agg_intermediate m l1 l2 = WOk [] (124 + 6 * zlen l1 + 6 * zlen l2 + pad_to (6 * zlen l1 + 6 * zlen l2) 4, pad_to (6 * zlen l1 + 6 * zlen l2) 4).
Proof.
  intros H. pose proof (zlen_nonneg l1). pose proof (zlen_nonneg l2). unfold agg_intermediate.
  rewrite (wmap_const_pure m 6 l1) by lia. unfold wbind at 1. rewrite add16_ok by lia. unfold wbind at 1.
  rewrite (wmap_const_pure m 6 l2) by lia. unfold wbind at 1. rewrite add16_ok by lia. unfold wbind at 1.
  pose proof (Z.mod_pos_bound (124 + 6 * zlen l1 + 6 * zlen l2) 4 ltac:(lia)).
  rewrite add16_ok by lia. unfold wbind, wret.
  replace (6 * zlen l1 + 6 * zlen l2) with (6 * (zlen l1 + zlen l2)) by lia. rewrite agg_pad by lia.
  replace (124 + 6 * (zlen l1 + zlen l2)) with (124 + 6 * zlen l1 + 6 * zlen l2) by lia. reflexivity.
Qed.
Lemma ses_bounds x : 12 * zlen (AggregateState_silent_entities x) <= zsum (map size_silent_entity (AggregateState_silent_entities x)).
Proof. apply zsum_lower. intros s _. unfold size_silent_entity. pose proof (zlen_nonneg (se_appearances s)). lia. Qed.
Lemma zsum_map_sub {A} (f : A -> Z) c l : zsum (map (fun x => f x - c) l) = zsum (map f l) - c * zlen l.
Proof. induction l; cbn [map zsum]; [unfold zlen; cbn [length]; lia|]. rewrite zlen_cons, IHl. lia. Qed.
(** a sum whose returned sizes are irrelevant: sizes may differ from octets written *)
Lemma RT_wsum2 {A} m (w : A -> W Z) (p : bparser A) (ret len : A -> Z) l :
  (forall x, In x l -> RT (w x) p x (ret x) (len x) /\ 0 <= ret x) ->
  forall acc, 0 <= acc -> acc + zsum (map ret l) < 65536 ->
  RT (wsum m w l acc) (count_nat p (length l)) l (acc + zsum (map ret l)) (zsum (map len l)).
Proof.
  induction l as [|x l IH]; intros Hx acc Ha Hs.
  - cbn [wsum count_nat length map zsum]. rewrite Z.add_0_r. apply RT_ret.
  - assert (Hs0 : 0 <= zsum (map ret l)) by (apply zsum_map_nonneg; intros; apply Hx; now right).
    cbn [wsum count_nat length map zsum] in *. destruct (Hx x (or_introl eq_refl)) as [Hr Hr0].
    eapply RT_bind; [exact Hr|].
    eapply RT_wpure; [apply add16_ok; lia|].
    destruct (IH (fun y Hy => Hx y (or_intror Hy)) (acc + ret x)) as (bs & Hw & Hl & Hp); [lia|lia|].
    exists bs. rewrite Hw. split; [f_equal; lia | split; [exact Hl |]].
    intros rest. unfold pbind, pret. rewrite Hp. reflexivity.
Qed.
Lemma RT_wmap_sum2 {A} m (w : A -> W Z) (p : bparser A) (ret len : A -> Z) l n :
  n = zlen l -> (forall x, In x l -> RT (w x) p x (ret x) (len x) /\ 0 <= ret x) -> zsum (map ret l) < 65536 ->
  RT (wmap_sum m w l) (count p n) l (zsum (map ret l)) (zsum (map len l)).
Proof.
  intros -> Hx Hs. unfold wmap_sum, count, zlen. rewrite Nat2Z.id.
  eapply RT_conv; [apply (RT_wsum2 m w p ret len l Hx 0); lia | reflexivity | lia | reflexivity].
Qed.
Lemma len_aggregate_state_ok m x : fits_aggregate_state x ->
  len_aggregate_state m x = WOk [] (size_aggregate_state x - 2 * zlen (AggregateState_silent_entities x)).
Proof.
  intros (Hs & _). unfold len_aggregate_state. unfold size_aggregate_state, agg_ids_size in *.
  pose proof (ses_bounds x). pose proof (vds_size_bound (AggregateState_variable_datums x)).
  pose proof (zlen_nonneg (AggregateState_aggregates x)). pose proof (zlen_nonneg (AggregateState_entities x)).
  pose proof (zlen_nonneg (AggregateState_silent_aggregates x)). pose proof (zlen_nonneg (AggregateState_silent_entities x)).
  pose proof (zlen_nonneg (AggregateState_variable_datums x)).
  pose proof (pad_to_bound (6 * zlen (AggregateState_aggregates x) + 6 * zlen (AggregateState_entities x)) 4).
  rewrite agg_intermediate_ok by lia. unfold wbind at 1. cbn [fst snd].
  rewrite wmap_const_pure by lia. unfold wbind at 1. rewrite add16_ok by lia. unfold wbind at 1.
  rewrite wmap_sum_pure with (len := fun s => size_silent_entity s - 2); [| |rewrite zsum_map_sub; lia].
  - rewrite zsum_map_sub. unfold wbind at 1. rewrite add16_ok by lia. unfold wbind at 1.
    rewrite len_variable_datums_ok by lia. unfold wbind. rewrite add16_ok by lia. cbn [app]. f_equal. lia.
  - intros s Hi. unfold size_silent_entity at 2. pose proof (zlen_nonneg (se_appearances s)). split; [|lia].
    apply len_silent_entity_ok. enough (size_silent_entity s <= zsum (map size_silent_entity (AggregateState_silent_entities x))) by lia.
    apply zsum_elt_le; [|exact Hi]. intros y _. unfold size_silent_entity. pose proof (zlen_nonneg (se_appearances y)). lia.
Qed.
Lemma RT_wpure_bind {A R B} (w1 : W A) (a : A) (p : bparser B) (k : A -> W R) x r L :
  w1 = WOk [] a -> RT (k a) p x r L -> RT (wbind w1 k) p x r L.
Proof. apply RT_wpure. Qed.
Lemma RT_aggregate_state m x : wf_AggregateState x -> fits_aggregate_state x ->
  RT (w_aggregate_state m x) (p_aggregate_state_body m) x (size_aggregate_state x - 2 * zlen (AggregateState_silent_entities x)) (size_aggregate_state x).
Proof.
  intros Hw Hf. pose proof (len_aggregate_state_ok m x Hf) as Hlen. pose proof (ses_bounds x) as Hses.
  destruct Hf as (Hs & Hmk & Hse & Hvd). unfold wf_AggregateState in Hw.
  unfold w_aggregate_state, p_aggregate_state_body. rewrite Hlen.
  unfold size_aggregate_state, agg_ids_size in Hs |- *.
  destruct x as [a f st t fo mk dm o cm v ags ens sas ses vds];
  cbn [AggregateState_aggregate_id AggregateState_force_id AggregateState_aggregate_state AggregateState_aggregate_type
    AggregateState_formation AggregateState_marking AggregateState_dimensions AggregateState_orientation AggregateState_center_of_mass
    AggregateState_velocity AggregateState_aggregates AggregateState_entities AggregateState_silent_aggregates
    AggregateState_silent_entities AggregateState_variable_datums] in *; wfd.
  pose proof (pad_to_bound (6 * zlen ags + 6 * zlen ens) 4).
  pdu_facts; pdu_mods.
  eapply RT_conv.
  - do 5 rt_step. eapply RT_bind; [apply RT_marking; assumption|]; cbv beta. do 8 rt_step.
    eapply RT_bind; [apply (RT_const_list m _ _ _ 6 _ _ RT_entity_id); side|]; cbv beta.
    eapply RT_bind; [apply (RT_const_list m _ _ _ 6 _ _ RT_entity_id); side|]; cbv beta.
    eapply RT_wpure; [apply agg_intermediate_ok; lia|].
    eapply RT_ppure; [intros i; unfold plift; rewrite agg_intermediate_ok by lia; reflexivity|]. cbn [snd].
    eapply RT_bind; [apply RT_pad; lia|]; cbv beta.
    eapply RT_bind; [apply (RT_const_list m _ _ _ 12 _ _ RT_silent_aggregate); side|]; cbv beta.
    eapply RT_bind.
    + apply RT_wmap_sum2 with (ret := fun s => size_silent_entity s - 2) (len := size_silent_entity); [reflexivity| |rewrite zsum_map_sub; lia].
      intros s Hi. rewrite Forall_forall in *. split; [|unfold size_silent_entity; pose proof (zlen_nonneg (se_appearances s)); lia].
      apply RT_silent_entity; auto. enough (size_silent_entity s <= zsum (map size_silent_entity ses)) by lia.
      apply zsum_elt_le; [|exact Hi]. intros y _. unfold size_silent_entity. pose proof (zlen_nonneg (se_appearances y)). lia.
    + cbv beta. rt_step. eapply RT_bind; [apply RT_variable_datums; side|]; cbv beta. apply RT_ret.
  - reflexivity.
  - reflexivity.
  - lia.
Qed.
Lemma Ext_aggregate_state m : Ext (p_aggregate_state_body m). Proof. unfold p_aggregate_state_body; ext. Qed.
(** release mode: the u16 sums wrap *)
Lemma wsum_wrapping {A} (f : A -> W Z) l : (forall x, In x l -> exists v, f x = WOk [] v) ->
  forall acc, exists v, wsum Wrapping f l acc = WOk [] v.
Proof.
  induction l as [|x l IH]; intros H acc; cbn [wsum]; [eexists; reflexivity|].
  destruct (H x (or_introl eq_refl)) as [v ->]. unfold wbind at 1. unfold add16, arith.
  destruct (_ && _); unfold wret, wbind; destruct (IH (fun y Hy => H y (or_intror Hy))
    (acc + v)) as [v1 E1]; destruct (IH (fun y Hy => H y (or_intror Hy)) ((acc + v) mod 65536)) as [v2 E2]; rewrite ?E1, ?E2; eexists; reflexivity.
Qed.
Lemma add16_wrapping a b : exists v, @add16 Z Wrapping a b = WOk [] v /\ 0 <= v < 65536.
Proof.
  unfold add16, arith. destruct (Z.leb_spec 0 (a+b)), (Z.ltb_spec (a+b) 65536); cbn [andb]; eexists; (split; [reflexivity|]); try lia; apply Z.mod_pos_bound; lia.
Qed.
Lemma agg_intermediate_wrapping l1 l2 : exists u v, agg_intermediate Wrapping l1 l2 = WOk [] (u, v) /\ 0 <= v.
Proof.
  unfold agg_intermediate, wmap_sum.
  destruct (wsum_wrapping (fun _ : EntityId => wret 6) l1) with (acc := 0) as [v1 E1]; [intros; eexists; reflexivity|]. rewrite E1. unfold wbind at 1.
  destruct (add16_wrapping 124 v1) as (v2 & E2 & _). rewrite E2. unfold wbind at 1.
  destruct (wsum_wrapping (fun _ : EntityId => wret 6) l2) with (acc := 0) as [v3 E3]; [intros; eexists; reflexivity|]. rewrite E3. unfold wbind at 1.
  destruct (add16_wrapping v2 v3) as (v4 & E4 & Hv4). rewrite E4. unfold wbind at 1.
  destruct (add16_wrapping v4 (v4 mod 4)) as (v5 & E5 & _). rewrite E5. unfold wbind, wret.
  exists v5, (v4 mod 4). split; [reflexivity|]. apply Z.mod_pos_bound; lia.
Qed.
Lemma Safe_agg_intermediate l1 l2 : SafeP (plift (agg_intermediate Wrapping l1 l2)) (fun p => 0 <= snd p).
Proof. intros i Hi. unfold plift. destruct (agg_intermediate_wrapping l1 l2) as (u & v & -> & H). split; assumption. Qed.
Lemma Safe_aggregate_state : Safe (p_aggregate_state_body Wrapping).
Proof.
  unfold p_aggregate_state_body.
  do 16 (eapply Safe_bind; [safe_atom|]; intros; cbv beta in * ).
  eapply Safe_bind; [apply Safe_agg_intermediate|]. intros [u v] Hv. cbn [snd] in *.
  safe.
Qed.

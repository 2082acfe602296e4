(** Records shared by the DIS PDUs: model, parser and writer.
    Sources: /repo/dis-rs/src/common/{model,parser,writer}.rs.
    Conventions: enum fields hold the raw integer, floats hold their bit pattern;
    [wf_*] states the ranges guaranteed by the Rust field types. *)
From Verif Require Import Base.

(** decompose conjunctions *)
Ltac wfd := repeat match goal with
  | H : _ /\ _ |- _ => destruct H
  end.

(** * SimulationAddress, EntityId, EventId *)
(* common/model.rs:634-637 *)
Record SimulationAddress := MkSimulationAddress { sa_site : Z; sa_app : Z }.
(* common/model.rs:660-663 *)
Record EntityId := MkEntityId { ei_addr : SimulationAddress; ei_id : Z }.
(* common/model.rs:711-714 *)
Record EventId := MkEventId { ev_addr : SimulationAddress; ev_id : Z }.
Definition wf_SimulationAddress s := u16 (sa_site s) /\ u16 (sa_app s).
Definition wf_EntityId e := wf_SimulationAddress (ei_addr e) /\ u16 (ei_id e).
Definition wf_EventId e := wf_SimulationAddress (ev_addr e) /\ u16 (ev_id e).

(* common/parser.rs:330-334 *)
Definition p_simulation_address : bparser SimulationAddress :=
  (site <- be_u16;; app <- be_u16;; pret (MkSimulationAddress site app))%parse.
(* common/parser.rs:336-343 *)
Definition p_entity_id : bparser EntityId :=
  (sa <- p_simulation_address;; e <- be_u16;; pret (MkEntityId sa e))%parse.
(* common/parser.rs:408-421 *)
Definition p_event_id : bparser EventId :=
  (site <- be_u16;; app <- be_u16;; e <- be_u16;; pret (MkEventId (MkSimulationAddress site app) e))%parse.
(* common/writer.rs:129-135 *)
Definition w_simulation_address (s : SimulationAddress) : W Z :=
  (put_u16 (sa_site s);; put_u16 (sa_app s);; wret 4)%write.
(* common/writer.rs:121-127 *)
Definition w_entity_id (e : EntityId) : W Z :=
  (n <- w_simulation_address (ei_addr e);; put_u16 (ei_id e);; wret (n + 2))%write.
(* common/writer.rs:137-143 *)
Definition w_event_id (e : EventId) : W Z :=
  (n <- w_simulation_address (ev_addr e);; put_u16 (ev_id e);; wret (n + 2))%write.

Lemma RT_simulation_address s : wf_SimulationAddress s -> RT (w_simulation_address s) p_simulation_address s 4 4.
Proof. destruct s; unfold wf_SimulationAddress, w_simulation_address, p_simulation_address; cbn; intros; wfd. rt. Qed.
Global Hint Resolve RT_simulation_address : rt.
Lemma RT_entity_id e : wf_EntityId e -> RT (w_entity_id e) p_entity_id e 6 6.
Proof. destruct e; unfold wf_EntityId, w_entity_id, p_entity_id; cbn; intros; wfd. rt. Qed.
Lemma RT_event_id e : wf_EventId e -> RT (w_event_id e) p_event_id e 6 6.
Proof.
  destruct e as [[s a] i]; unfold wf_EventId, wf_SimulationAddress, w_event_id, p_event_id, w_simulation_address; cbn.
  intros; wfd. exists (be 2 s ++ be 2 a ++ be 2 i). split; [reflexivity|]. split; [reflexivity|].
  intros rest. unfold be_u16, pbind, pret. rewrite <- !app_assoc.
  unfold u16 in *. rewrite !be_u_be by (cbn; lia). reflexivity.
Qed.
Global Hint Resolve RT_entity_id RT_event_id : rt.
Lemma Ext_simulation_address : Ext p_simulation_address. Proof. unfold p_simulation_address; ext. Qed.
Global Hint Resolve Ext_simulation_address : ext.
Lemma Ext_entity_id : Ext p_entity_id. Proof. unfold p_entity_id; ext. Qed.
Lemma Ext_event_id : Ext p_event_id. Proof. unfold p_event_id; ext. Qed.
Global Hint Resolve Ext_entity_id Ext_event_id : ext.
Lemma Safe_simulation_address : Safe p_simulation_address. Proof. unfold p_simulation_address; safe. Qed.
Global Hint Resolve Safe_simulation_address : safe.
Lemma Safe_entity_id : Safe p_entity_id. Proof. unfold p_entity_id; safe. Qed.
Lemma Safe_event_id : Safe p_event_id. Proof. unfold p_event_id; safe. Qed.
Global Hint Resolve Safe_entity_id Safe_event_id : safe.

(** * VectorF32, Location, Orientation *)
(* common/model.rs:744-748, 778-782, 812-816 *)
Record VectorF32 := MkVectorF32 { v_1 : Z; v_2 : Z; v_3 : Z }.
Record Location := MkLocation { loc_x : Z; loc_y : Z; loc_z : Z }.
Record Orientation := MkOrientation { or_psi : Z; or_theta : Z; or_phi : Z }.
Definition wf_VectorF32 v := u32 (v_1 v) /\ u32 (v_2 v) /\ u32 (v_3 v).
Definition wf_Location v := u64 (loc_x v) /\ u64 (loc_y v) /\ u64 (loc_z v).
Definition wf_Orientation v := u32 (or_psi v) /\ u32 (or_theta v) /\ u32 (or_phi v).

(* common/parser.rs:378-406: [count(be_f32, 3)] then [elements.get(i).expect(..)];
   the [expect] is the PPanic branch. *)
Definition p_vec3_f32 : bparser VectorF32 :=
  (l <- count be_f32 3;;
   match l with
   | [a; b; c] => pret (MkVectorF32 a b c)
   | _ => ppanic
   end)%parse.
Definition p_location : bparser Location :=
  (l <- count be_f64 3;;
   match l with
   | [a; b; c] => pret (MkLocation a b c)
   | _ => ppanic
   end)%parse.
Definition p_orientation : bparser Orientation :=
  (l <- count be_f32 3;;
   match l with
   | [a; b; c] => pret (MkOrientation a b c)
   | _ => ppanic
   end)%parse.
(* common/writer.rs:145-170 *)
Definition w_vector_f32 (v : VectorF32) : W Z :=
  (put_f32 (v_1 v);; put_f32 (v_2 v);; put_f32 (v_3 v);; wret 12)%write.
Definition w_location (v : Location) : W Z :=
  (put_f64 (loc_x v);; put_f64 (loc_y v);; put_f64 (loc_z v);; wret 24)%write.
Definition w_orientation (v : Orientation) : W Z :=
  (put_f32 (or_psi v);; put_f32 (or_theta v);; put_f32 (or_phi v);; wret 12)%write.

Lemma p_vec3_alt i : p_vec3_f32 i = (a <- be_f32;; b <- be_f32;; c <- be_f32;; pret (MkVectorF32 a b c))%parse i.
Proof.
  unfold p_vec3_f32, count. cbn [count_nat Z.to_nat Pos.to_nat Pos.iter_op Init.Nat.add].
  change (Pos.to_nat 3) with 3%nat. cbn [count_nat]. unfold pbind, pret.
  repeat (destruct (be_f32 _); [|reflexivity|reflexivity]). reflexivity.
Qed.
Lemma p_location_alt i : p_location i = (a <- be_f64;; b <- be_f64;; c <- be_f64;; pret (MkLocation a b c))%parse i.
Proof.
  unfold p_location, count. change (Z.to_nat 3) with 3%nat. cbn [count_nat]. unfold pbind, pret.
  repeat (destruct (be_f64 _); [|reflexivity|reflexivity]). reflexivity.
Qed.
Lemma p_orientation_alt i : p_orientation i = (a <- be_f32;; b <- be_f32;; c <- be_f32;; pret (MkOrientation a b c))%parse i.
Proof.
  unfold p_orientation, count. change (Z.to_nat 3) with 3%nat. cbn [count_nat]. unfold pbind, pret.
  repeat (destruct (be_f32 _); [|reflexivity|reflexivity]). reflexivity.
Qed.
(** transport along pointwise equality of parsers *)
Lemma RT_pext {R A} (w : W R) (p q : bparser A) x r L : (forall i, p i = q i) -> RT w q x r L -> RT w p x r L.
Proof. intros H (b & Hw & Hl & Hp). exists b. repeat split; auto. intros; rewrite H; auto. Qed.
Lemma Ext_pext {A} (p q : bparser A) : (forall i, p i = q i) -> Ext q -> Ext p.
Proof. intros H Hq i r a. rewrite H. intros Hi. destruct (Hq _ _ _ Hi) as [Hs Hx]. split; auto. intros x. rewrite H; auto. Qed.
Lemma Safe_pext {A} (p q : bparser A) P : (forall i, p i = q i) -> SafeP q P -> SafeP p P.
Proof. intros H Hq i Hi. rewrite H. now apply Hq. Qed.

Lemma RT_vector_f32 v : wf_VectorF32 v -> RT (w_vector_f32 v) p_vec3_f32 v 12 12.
Proof. intros H. eapply RT_pext; [apply p_vec3_alt|]. destruct v; unfold wf_VectorF32, w_vector_f32 in *; cbn in *; wfd. rt. Qed.
Lemma RT_location v : wf_Location v -> RT (w_location v) p_location v 24 24.
Proof. intros H. eapply RT_pext; [apply p_location_alt|]. destruct v; unfold wf_Location, w_location in *; cbn in *; wfd. rt. Qed.
Lemma RT_orientation v : wf_Orientation v -> RT (w_orientation v) p_orientation v 12 12.
Proof. intros H. eapply RT_pext; [apply p_orientation_alt|]. destruct v; unfold wf_Orientation, w_orientation in *; cbn in *; wfd. rt. Qed.
Global Hint Resolve RT_vector_f32 RT_location RT_orientation : rt.
Lemma Ext_vec3 : Ext p_vec3_f32. Proof. eapply Ext_pext; [apply p_vec3_alt|ext]. Qed.
Lemma Ext_location : Ext p_location. Proof. eapply Ext_pext; [apply p_location_alt|ext]. Qed.
Lemma Ext_orientation : Ext p_orientation. Proof. eapply Ext_pext; [apply p_orientation_alt|ext]. Qed.
Global Hint Resolve Ext_vec3 Ext_location Ext_orientation : ext.
Lemma Safe_vec3 : Safe p_vec3_f32. Proof. eapply Safe_pext; [apply p_vec3_alt|safe]. Qed.
Lemma Safe_location : Safe p_location. Proof. eapply Safe_pext; [apply p_location_alt|safe]. Qed.
Lemma Safe_orientation : Safe p_orientation. Proof. eapply Safe_pext; [apply p_orientation_alt|safe]. Qed.
Global Hint Resolve Safe_vec3 Safe_location Safe_orientation : safe.

(** * EntityType *)
(* common/model.rs:845-853; kind, domain (u8), country (u16) are enums *)
Record EntityType := MkEntityType {
  et_kind : Z; et_domain : Z; et_country : Z;
  et_category : Z; et_subcategory : Z; et_specific : Z; et_extra : Z }.
Definition wf_EntityType t :=
  u8 (et_kind t) /\ u8 (et_domain t) /\ u16 (et_country t) /\ u8 (et_category t) /\
  u8 (et_subcategory t) /\ u8 (et_specific t) /\ u8 (et_extra t).
(* common/parser.rs:345-376 *)
Definition p_entity_type : bparser EntityType :=
  (k <- be_u8;; d <- be_u8;; c <- be_u16;; cat <- be_u8;; sub <- be_u8;; sp <- be_u8;; ex <- be_u8;;
   pret (MkEntityType k d c cat sub sp ex))%parse.
(* common/entity_state/writer.rs: impl Serialize for EntityType *)
Definition w_entity_type (t : EntityType) : W Z :=
  (put_u8 (et_kind t);; put_u8 (et_domain t);; put_u16 (et_country t);; put_u8 (et_category t);;
   put_u8 (et_subcategory t);; put_u8 (et_specific t);; put_u8 (et_extra t);; wret 8)%write.
Lemma RT_entity_type t : wf_EntityType t -> RT (w_entity_type t) p_entity_type t 8 8.
Proof. destruct t; unfold wf_EntityType, w_entity_type, p_entity_type; cbn; intros; wfd. rt. Qed.
Global Hint Resolve RT_entity_type : rt.
Lemma Ext_entity_type : Ext p_entity_type. Proof. unfold p_entity_type; ext. Qed.
Global Hint Resolve Ext_entity_type : ext.
Lemma Safe_entity_type : Safe p_entity_type. Proof. unfold p_entity_type; safe. Qed.
Global Hint Resolve Safe_entity_type : safe.

(** * MunitionDescriptor, DescriptorRecord *)
(* common/model.rs:1025-1030 *)
Record MunitionDescriptor := MkMunitionDescriptor { md_warhead : Z; md_fuse : Z; md_quantity : Z; md_rate : Z }.
Definition wf_MunitionDescriptor d := u16 (md_warhead d) /\ u16 (md_fuse d) /\ u16 (md_quantity d) /\ u16 (md_rate d).
(* common/model.rs:983-990 *)
Inductive DescriptorRecord :=
| DMunition (t : EntityType) (d : MunitionDescriptor)
| DExpendable (t : EntityType)
| DExplosion (t : EntityType) (material force : Z).
Definition wf_DescriptorRecord d := match d with
  | DMunition t m => wf_EntityType t /\ wf_MunitionDescriptor m
  | DExpendable t => wf_EntityType t
  | DExplosion t mat f => wf_EntityType t /\ u16 mat /\ u32 f
  end.
(* common/parser.rs:491-515 *)
Definition p_munition_descriptor : bparser MunitionDescriptor :=
  (w <- be_u16;; f <- be_u16;; q <- be_u16;; r <- be_u16;; pret (MkMunitionDescriptor w f q r))%parse.
(* common/writer.rs:197-205 *)
Definition w_munition_descriptor (d : MunitionDescriptor) : W Z :=
  (put_u16 (md_warhead d);; put_u16 (md_fuse d);; put_u16 (md_quantity d);; put_u16 (md_rate d);; wret 8)%write.
(* common/parser.rs:423-451; FireTypeIndicator: 0 = Munition, 1 = Expendable *)
Definition p_descriptor_record_fti (fti : Z) : bparser DescriptorRecord :=
  (t <- p_entity_type;;
   if fti =? 0 then (m <- p_munition_descriptor;; pret (DMunition t m))
   else if fti =? 1 then (_ <- be_u64;; pret (DExpendable t))
   else (_ <- be_u64;; pret (DExpendable t)))%parse.
(* common/parser.rs:453-489; DetonationTypeIndicator: 0 = Munition, 1 = Expendable,
   2 = NonmunitionExplosion. The explosion arm reads 2 + 4 octets. *)
Definition p_descriptor_record_dti (dti : Z) : bparser DescriptorRecord :=
  (t <- p_entity_type;;
   if dti =? 0 then (m <- p_munition_descriptor;; pret (DMunition t m))
   else if dti =? 1 then (_ <- be_u64;; pret (DExpendable t))
   else if dti =? 2 then (mat <- be_u16;; f <- be_f32;; pret (DExplosion t mat f))
   else (_ <- be_u64;; pret (DExpendable t)))%parse.
(* common/writer.rs:172-195. The explosion arm writes 2 + 2 (padding) + 4 octets. *)
Definition w_descriptor_record (d : DescriptorRecord) : W Z :=
  match d with
  | DMunition t m => (a <- w_entity_type t;; b <- w_munition_descriptor m;; wret (a + b))%write
  | DExpendable t => (a <- w_entity_type t;; put_u64 0;; wret (a + 8))%write
  | DExplosion t mat f =>
      (a <- w_entity_type t;; put_u16 mat;; put_u16 0;; put_f32 f;; wret (a + 8))%write
  end.
Lemma RT_munition_descriptor d : wf_MunitionDescriptor d -> RT (w_munition_descriptor d) p_munition_descriptor d 8 8.
Proof. destruct d; unfold wf_MunitionDescriptor, w_munition_descriptor, p_munition_descriptor; cbn; intros; wfd. rt. Qed.
Global Hint Resolve RT_munition_descriptor : rt.
(** the descriptor's variant agrees with the indicator that will drive the parser *)
Definition descriptor_fits_fti (fti : Z) (d : DescriptorRecord) : Prop :=
  match d with DMunition _ _ => fti = 0 | DExpendable _ => fti <> 0 | DExplosion _ _ _ => False end.
Definition descriptor_fits_dti (dti : Z) (d : DescriptorRecord) : Prop :=
  match d with DMunition _ _ => dti = 0 | DExpendable _ => dti <> 0 /\ dti <> 2 | DExplosion _ _ _ => dti = 2 end.
Definition not_explosion (d : DescriptorRecord) : Prop :=
  match d with DExplosion _ _ _ => False | _ => True end.
Lemma RT_descriptor_fti fti d : wf_DescriptorRecord d -> descriptor_fits_fti fti d ->
  RT (w_descriptor_record d) (p_descriptor_record_fti fti) d 16 16.
Proof.
  intros H Hf. destruct d as [t m|t|t a b]; cbn in H, Hf; [subst fti|..|contradiction];
    unfold p_descriptor_record_fti, w_descriptor_record; wfd.
  - cbn [Z.eqb]. rt.
  - destruct (Z.eqb_spec fti 0); [congruence|]. destruct (fti =? 1); rt.
Qed.
Lemma RT_descriptor_dti dti d : wf_DescriptorRecord d -> descriptor_fits_dti dti d -> not_explosion d ->
  RT (w_descriptor_record d) (p_descriptor_record_dti dti) d 16 16.
Proof.
  intros H Hf Hn. destruct d as [t m|t|t a b]; cbn in H, Hf, Hn; [subst dti|..|contradiction];
    unfold p_descriptor_record_dti, w_descriptor_record; wfd.
  - cbn [Z.eqb]. rt.
  - destruct (Z.eqb_spec dti 0); [congruence|]. destruct (dti =? 1); [rt|].
    destruct (Z.eqb_spec dti 2); [congruence|]. rt.
Qed.
Global Hint Resolve RT_descriptor_fti RT_descriptor_dti : rt.
Lemma w_descriptor_record_len d : wf_DescriptorRecord d -> exists bs, w_descriptor_record d = WOk bs 16 /\ zlen bs = 16.
Proof.
  destruct d as [t m|t|t a b]; cbn [wf_DescriptorRecord]; intros H; wfd; cbn [w_descriptor_record];
    eexists; (split; [reflexivity|reflexivity]).
Qed.
Lemma Ext_munition_descriptor : Ext p_munition_descriptor. Proof. unfold p_munition_descriptor; ext. Qed.
Global Hint Resolve Ext_munition_descriptor : ext.
Lemma Ext_descriptor_fti f : Ext (p_descriptor_record_fti f). Proof. unfold p_descriptor_record_fti; ext. Qed.
Lemma Ext_descriptor_dti f : Ext (p_descriptor_record_dti f). Proof. unfold p_descriptor_record_dti; ext. Qed.
Global Hint Resolve Ext_descriptor_fti Ext_descriptor_dti : ext.
Lemma Safe_munition_descriptor : Safe p_munition_descriptor. Proof. unfold p_munition_descriptor; safe. Qed.
Global Hint Resolve Safe_munition_descriptor : safe.
Lemma Safe_descriptor_fti f : Safe (p_descriptor_record_fti f). Proof. unfold p_descriptor_record_fti; safe. Qed.
Lemma Safe_descriptor_dti f : Safe (p_descriptor_record_dti f). Proof. unfold p_descriptor_record_dti; safe. Qed.
Global Hint Resolve Safe_descriptor_fti Safe_descriptor_dti : safe.

(** * ClockTime *)
(* common/model.rs:1191-1194 *)
Record ClockTime := MkClockTime { ct_hour : Z; ct_past : Z }.
Definition wf_ClockTime c := i32 (ct_hour c) /\ u32 (ct_past c).
(* common/parser.rs:517-522 *)
Definition p_clock_time : bparser ClockTime :=
  (h <- be_i32;; t <- be_u32;; pret (MkClockTime h t))%parse.
(* common/writer.rs:207-213 *)
Definition w_clock_time (c : ClockTime) : W Z := (put_i32 (ct_hour c);; put_u32 (ct_past c);; wret 8)%write.
Lemma RT_clock_time c : wf_ClockTime c -> RT (w_clock_time c) p_clock_time c 8 8.
Proof. destruct c; unfold wf_ClockTime, w_clock_time, p_clock_time; cbn; intros; wfd. rt. Qed.
Global Hint Resolve RT_clock_time : rt.
Lemma Ext_clock_time : Ext p_clock_time. Proof. unfold p_clock_time; ext. Qed.
Global Hint Resolve Ext_clock_time : ext.
Lemma Safe_clock_time : Safe p_clock_time. Proof. unfold p_clock_time; safe. Qed.
Global Hint Resolve Safe_clock_time : safe.

(** * length_padded_to_num *)
(* common/model.rs:1259-1263 *)
Record PaddedRecordLengths := MkPadded { pl_data : Z; pl_padding : Z; pl_record : Z }.
(* common/model.rs:1283-1295. [None] is the panic of the remainder by zero or of the
   assert; usize overflow of the addition is not modelled (lengths of buffers in memory). *)
Definition length_padded_to_num (data_length pad_to_num : Z) : option PaddedRecordLengths :=
  if pad_to_num =? 0 then None
  else
    let data_remaining := data_length mod pad_to_num in
    let padding_num := if data_remaining =? 0 then 0 else pad_to_num - data_remaining in
    let record_length := data_length + padding_num in
    if record_length mod pad_to_num =? 0
    then Some (MkPadded data_length padding_num record_length) else None.

Lemma length_padded_spec d n : 0 <= d -> 0 < n ->
  exists p, length_padded_to_num d n = Some (MkPadded d p (d + p)) /\ 0 <= p < n /\ (d + p) mod n = 0.
Proof.
  intros Hd Hn. unfold length_padded_to_num.
  destruct (Z.eqb_spec n 0) as [|_]; [lia|]. cbv zeta.
  pose proof (Z.mod_pos_bound d n Hn) as Hm.
  set (p := if d mod n =? 0 then 0 else n - d mod n).
  assert (Hp : 0 <= p < n) by (unfold p; destruct (Z.eqb_spec (d mod n) 0); lia).
  assert (Hr : (d + p) mod n = 0).
  { unfold p. destruct (Z.eqb_spec (d mod n) 0) as [E|E].
    - now rewrite Z.add_0_r.
    - replace (d + (n - d mod n)) with ((d / n + 1) * n).
      + apply Z_mod_mult.
      + pose proof (Z.div_mod d n). lia. }
  exists p. rewrite Hr. cbn [Z.eqb]. auto.
Qed.
(** the padding as a closed formula *)
Definition pad_to (d n : Z) : Z := (- d) mod n.
Lemma pad_to_spec d p n : 0 < n -> 0 <= p < n -> (d + p) mod n = 0 -> p = pad_to d n.
Proof.
  intros Hn Hp Hm. unfold pad_to.
  apply Z_div_exact_full_2 in Hm; [|lia].
  replace (-d) with (p + (- ((d+p)/n)) * n) by lia.
  rewrite Z_mod_plus_full. symmetry. apply Z.mod_small; lia.
Qed.
Lemma pad_to_bound d n : 0 < n -> 0 <= pad_to d n < n.
Proof. intros. apply Z.mod_pos_bound; lia. Qed.
Lemma length_padded_val d n : 0 <= d -> 0 < n ->
  length_padded_to_num d n = Some (MkPadded d (pad_to d n) (d + pad_to d n)).
Proof.
  intros Hd Hn. destruct (length_padded_spec d n Hd Hn) as (p & -> & Hp & Hm).
  now rewrite (pad_to_spec d p n Hn Hp Hm).
Qed.
Lemma pad_to_total d n : 0 < n -> (d + pad_to d n) mod n = 0.
Proof. intros. unfold pad_to. rewrite Zplus_mod_idemp_r. replace (d + - d) with 0 by lia. apply Z.mod_0_l; lia. Qed.

(** writer / parser sides of the helper (the panic of the assert made explicit) *)
Definition w_padded (d n : Z) : W PaddedRecordLengths :=
  match length_padded_to_num d n with Some p => wret p | None => wpanic end.
Definition p_padded (d n : Z) : bparser PaddedRecordLengths :=
  match length_padded_to_num d n with Some p => pret p | None => ppanic end.
Lemma w_padded_ok d n : 0 <= d -> 0 < n -> w_padded d n = WOk [] (MkPadded d (pad_to d n) (d + pad_to d n)).
Proof. intros; unfold w_padded; now rewrite length_padded_val. Qed.
Lemma p_padded_ok d n i : 0 <= d -> 0 < n -> p_padded d n i = POk i (MkPadded d (pad_to d n) (d + pad_to d n)).
Proof. intros; unfold p_padded; now rewrite length_padded_val. Qed.
Lemma Ext_padded d n : Ext (p_padded d n).
Proof. unfold p_padded. destruct length_padded_to_num; ext. Qed.
Global Hint Resolve Ext_padded : ext.
Lemma Safe_padded d n : 0 <= d -> 0 < n ->
  SafeP (p_padded d n) (fun pl => pl = MkPadded d (pad_to d n) (d + pad_to d n)).
Proof. intros Hd Hn i Hi. rewrite p_padded_ok by assumption. auto. Qed.

(** * FixedDatum, VariableDatum, DatumSpecification *)
(* common/model.rs:1226-1229, 1242-1245, 1207-1210 *)
Record FixedDatum := MkFixedDatum { fd_id : Z; fd_value : Z }.
Record VariableDatum := MkVariableDatum { vd_id : Z; vd_value : list Z }.
Record DatumSpecification := MkDatumSpecification { ds_fixed : list FixedDatum; ds_variable : list VariableDatum }.
Definition wf_FixedDatum d := u32 (fd_id d) /\ u32 (fd_value d).
Definition wf_VariableDatum d := u32 (vd_id d) /\ bytes (vd_value d).
(* common/parser.rs:536-544 *)
Definition p_fixed_datum : bparser FixedDatum :=
  (i <- be_u32;; v <- be_u32;; pret (MkFixedDatum i v))%parse.
(* common/writer.rs:215-222 *)
Definition w_fixed_datum (d : FixedDatum) : W Z := (put_u32 (fd_id d);; put_u32 (fd_value d);; wret 8)%write.
(* common/parser.rs:546-563 *)
Definition p_variable_datum : bparser VariableDatum :=
  (i <- be_u32;; bits <- be_u32;;
   pl <- p_padded (bits / 8) 8;;
   v <- take (pl_data pl);; _ <- take (pl_padding pl);;
   pret (MkVariableDatum i v))%parse.
(* common/writer.rs:224-243. The padding length is computed in bits and multiplied by 8. *)
Definition w_variable_datum (m : mode) (d : VariableDatum) : W Z :=
  (let data_length_bits := zlen (vd_value d) * 8 in
   pl <- w_padded data_length_bits 64;;
   let record_length_bits := pl_record pl mod 65536 in
   let record_length_bytes := record_length_bits / 8 in
   let padding_length_bytes := pl_padding pl * 8 in
   put_u32 (vd_id d);;
   put_u32 (data_length_bits mod 4294967296);;
   put_slice (vd_value d);;
   put_bytes 0 padding_length_bytes;;
   add16 m 8 record_length_bytes)%write.
(* common/parser.rs:524-534 *)
Definition p_datum_specification : bparser DatumSpecification :=
  (nf <- be_u32;; nv <- be_u32;;
   f <- count p_fixed_datum nf;; v <- count p_variable_datum nv;;
   pret (MkDatumSpecification f v))%parse.
(* common/writer.rs:.. impl Serialize for DatumSpecification -- see Dis_simman *)

Lemma RT_fixed_datum d : wf_FixedDatum d -> RT (w_fixed_datum d) p_fixed_datum d 8 8.
Proof. destruct d; unfold wf_FixedDatum, w_fixed_datum, p_fixed_datum; cbn; intros; wfd. rt. Qed.
Global Hint Resolve RT_fixed_datum : rt.
Lemma Ext_fixed_datum : Ext p_fixed_datum. Proof. unfold p_fixed_datum; ext. Qed.
Global Hint Resolve Ext_fixed_datum : ext.
Lemma Safe_fixed_datum : Safe p_fixed_datum. Proof. unfold p_fixed_datum; safe. Qed.
Global Hint Resolve Safe_fixed_datum : safe.
Lemma Ext_variable_datum : Ext p_variable_datum. Proof. unfold p_variable_datum; ext. Qed.
Global Hint Resolve Ext_variable_datum : ext.
Lemma Safe_variable_datum : Safe p_variable_datum.
Proof.
  unfold p_variable_datum. safe_step. safe_step.
  assert (Hd : 0 <= a0 / 8) by (apply Z.div_pos; range0).
  eapply Safe_bind; [apply Safe_padded; lia|]. intros pl ->. cbn [pl_data pl_padding].
  pose proof (pad_to_bound (a0/8) 8). safe.
Qed.
Global Hint Resolve Safe_variable_datum : safe.
Lemma Ext_datum_specification : Ext p_datum_specification. Proof. unfold p_datum_specification; ext. Qed.
Global Hint Resolve Ext_datum_specification : ext.
Lemma Safe_datum_specification : Safe p_datum_specification. Proof. unfold p_datum_specification; safe. Qed.
Global Hint Resolve Safe_datum_specification : safe.

Lemma pad_to_8_64 n : pad_to (n * 8) 64 = 8 * pad_to n 8.
Proof.
  unfold pad_to. replace (- (n * 8)) with (8 * (- n)) by lia.
  replace 64 with (8 * 8) by reflexivity. now rewrite Z.mul_mod_distr_l by lia.
Qed.
Lemma pad_to_aligned n k : 0 < k -> n mod k = 0 -> pad_to n k = 0.
Proof.
  intros Hk H. symmetry. apply pad_to_spec; [lia|lia|]. now rewrite Z.add_0_r.
Qed.

(** What the variable datum writer really emits, for any length that fits its fields:
    the value, then 64 times the padding the parser expects. *)
Lemma w_variable_datum_bytes m d : wf_VariableDatum d -> zlen (vd_value d) < 8184 ->
  w_variable_datum m d =
  WOk (be 4 (vd_id d) ++ be 4 (zlen (vd_value d) * 8) ++ vd_value d
        ++ repeat 0 (Z.to_nat (64 * pad_to (zlen (vd_value d)) 8)))
      (8 + zlen (vd_value d) + pad_to (zlen (vd_value d)) 8).
Proof.
  intros [Hid Hb] Hl. unfold w_variable_datum. cbv zeta.
  pose proof (zlen_nonneg (vd_value d)) as Hn. pose proof (pad_to_bound (zlen (vd_value d)) 8).
  rewrite w_padded_ok by lia. rewrite pad_to_8_64. unfold wbind at 1. cbn [pl_record pl_padding].
  rewrite (Z.mod_small (zlen (vd_value d) * 8)) by lia.
  rewrite (Z.mod_small (_ + _) 65536) by lia.
  replace (zlen (vd_value d) * 8 + 8 * pad_to (zlen (vd_value d)) 8)
    with ((zlen (vd_value d) + pad_to (zlen (vd_value d)) 8) * 8) by lia.
  rewrite Z.div_mul by lia. unfold put_u32, put, put_slice, put_bytes, wbind.
  rewrite add16_ok by lia. cbn [app].
  replace (64 * pad_to (zlen (vd_value d)) 8) with (8 * pad_to (zlen (vd_value d)) 8 * 8) by lia.
  now rewrite app_nil_r, Z.add_assoc.
Qed.
Lemma RT_variable_datum m d : wf_VariableDatum d -> zlen (vd_value d) < 8184 -> zlen (vd_value d) mod 8 = 0 ->
  RT (w_variable_datum m d) p_variable_datum d (8 + zlen (vd_value d)) (8 + zlen (vd_value d)).
Proof.
  intros Hw Hl Ha. rewrite w_variable_datum_bytes by assumption.
  rewrite (pad_to_aligned _ 8) by (lia || assumption). rewrite Z.mul_0_r, Z.add_0_r. cbn [Z.to_nat repeat].
  rewrite app_nil_r. destruct Hw as [Hid Hb]. pose proof (zlen_nonneg (vd_value d)).
  eexists. split; [reflexivity|]. split; [rewrite !zlen_app, !be_zlen; lia|].
  intros rest. unfold p_variable_datum, pbind, be_u32. rewrite <- !app_assoc.
  rewrite be_u_be by (unfold u32 in Hid; cbn; lia). rewrite be_u_be by (cbn; lia).
  rewrite Z.div_mul by lia. rewrite p_padded_ok by lia. cbn [pl_data pl_padding].
  rewrite take_app by reflexivity. rewrite (pad_to_aligned _ 8) by (lia || assumption).
  change rest with ([] ++ rest) at 1. rewrite take_app by reflexivity. destruct d; reflexivity.
Qed.

(** * Variable parameters *)
(* common/model.rs:1310-1316 *)
Record ArticulatedPart := MkArticulatedPart {
  ap_change : Z; ap_attachment : Z; ap_metric : Z; ap_class : Z; ap_value : Z }.
(* common/model.rs:1351-1356 *)
Record AttachedPart := MkAttachedPart { at_detached : Z; at_attachment : Z; at_parameter : Z; at_type : EntityType }.
(* common/model.rs:1386-1392 *)
Record SeparationParameter := MkSeparation {
  se_reason : Z; se_pre : Z; se_parent : EntityId; se_station : Z; se_number : Z }.
(* common/model.rs:1427-1430 *)
Record EntityTypeParameter := MkEntityTypeParameter { etp_change : Z; etp_type : EntityType }.
(* common/model.rs:1450-1459 *)
Record EntityAssociation := MkEntityAssociation {
  ea_change : Z; ea_status : Z; ea_type : Z; ea_entity : EntityId; ea_station : Z;
  ea_connection : Z; ea_member : Z; ea_group : Z }.
(* common/model.rs:1299-1306 *)
Inductive VariableParameter :=
| VPArticulated (x : ArticulatedPart)
| VPAttached (x : AttachedPart)
| VPSeparation (x : SeparationParameter)
| VPEntityType (x : EntityTypeParameter)
| VPEntityAssociation (x : EntityAssociation)
| VPUnspecified (t : Z) (b : list Z).
Definition wf_VariableParameter (v : VariableParameter) : Prop :=
  match v with
  | VPArticulated x => u8 (ap_change x) /\ u16 (ap_attachment x) /\ u32 (ap_metric x) /\ u32 (ap_class x) /\ u32 (ap_value x)
  | VPAttached x => u8 (at_detached x) /\ u16 (at_attachment x) /\ u32 (at_parameter x) /\ wf_EntityType (at_type x)
  | VPSeparation x => u8 (se_reason x) /\ u8 (se_pre x) /\ wf_EntityId (se_parent x) /\ u16 (se_station x) /\ u16 (se_number x)
  | VPEntityType x => u8 (etp_change x) /\ wf_EntityType (etp_type x)
  | VPEntityAssociation x => u8 (ea_change x) /\ u8 (ea_status x) /\ u8 (ea_type x) /\ wf_EntityId (ea_entity x)
      /\ u16 (ea_station x) /\ u8 (ea_connection x) /\ u8 (ea_member x) /\ u16 (ea_group x)
  | VPUnspecified t b => u8 t /\ bytes b /\ zlen b = 15
  end.

(* common/parser.rs:585-603 *)
Definition p_articulated_part : bparser VariableParameter :=
  (c <- be_u8;; a <- be_u16;; pt <- be_u32;;
   let metric := Z.land pt 31 in
   let class := pt - metric in
   v <- be_f32;; _ <- be_u32;;
   pret (VPArticulated (MkArticulatedPart c a metric class v)))%parse.
(* common/parser.rs:605-618 *)
Definition p_attached_part : bparser VariableParameter :=
  (d <- be_u8;; a <- be_u16;; p <- be_u32;; t <- p_entity_type;;
   pret (VPAttached (MkAttachedPart d a p t)))%parse.
(* common/parser.rs:620-641 *)
Definition p_entity_association : bparser VariableParameter :=
  (c <- be_u8;; s <- be_u8;; t <- be_u8;; e <- p_entity_id;; o <- be_u16;; ph <- be_u8;; g <- be_u8;; n <- be_u16;;
   pret (VPEntityAssociation (MkEntityAssociation c s t e o ph g n)))%parse.
(* common/parser.rs:643-653 *)
Definition p_entity_type_vp : bparser VariableParameter :=
  (c <- be_u8;; t <- p_entity_type;; _ <- be_u16;; _ <- be_u32;;
   pret (VPEntityType (MkEntityTypeParameter c t)))%parse.
(* common/parser.rs:655-670: no padding octet is read after the pre-entity indicator *)
Definition p_separation : bparser VariableParameter :=
  (r <- be_u8;; p <- be_u8;; e <- p_entity_id;; _ <- be_u16;; s <- be_u16;; n <- be_u16;;
   pret (VPSeparation (MkSeparation r p e s n)))%parse.
(* common/parser.rs:565-583; VariableParameterRecordType 0..4 *)
Definition p_variable_parameter : bparser VariableParameter :=
  (t <- be_u8;;
   if t =? 0 then p_articulated_part
   else if t =? 1 then p_attached_part
   else if t =? 2 then p_separation
   else if t =? 3 then p_entity_type_vp
   else if t =? 4 then p_entity_association
   else (b <- take 15;; pret (VPUnspecified t b)))%parse.

(** u32 addition under a mode *)
Definition add32 {O} (m : mode) (a b : Z) : wres O Z :=
  let r := a + b in
  if (0 <=? r) && (r <? 4294967296) then wret r
  else match m with Checked => wpanic | Wrapping => wret (r mod 4294967296) end.
Arguments add32 : simpl never.
Lemma add32_ok {O} m a b : 0 <= a + b < 4294967296 -> @add32 O m a b = WOk [] (a + b).
Proof.
  intros H. unfold add32. cbv zeta.
  destruct (Z.leb_spec 0 (a+b)); destruct (Z.ltb_spec (a+b) 4294967296); cbn; try lia. reflexivity.
Qed.
(* common/writer.rs:281-294 *)
Definition w_articulated_part (m : mode) (x : ArticulatedPart) : W Z :=
  (put_u8 (ap_change x);; put_u16 (ap_attachment x);;
   pt <- add32 m (ap_class x) (ap_metric x);;
   put_u32 pt;; put_f32 (ap_value x);; put_u32 0;; wret 15)%write.
(* common/writer.rs:296-305 *)
Definition w_attached_part (x : AttachedPart) : W Z :=
  (put_u8 (at_detached x);; put_u16 (at_attachment x);; put_u32 (at_parameter x);;
   _ <- w_entity_type (at_type x);; wret 15)%write.
(* common/writer.rs:307-319: a padding octet after the pre-entity indicator *)
Definition w_separation (x : SeparationParameter) : W Z :=
  (put_u8 (se_reason x);; put_u8 (se_pre x);; put_u8 0;; _ <- w_entity_id (se_parent x);;
   put_u16 0;; put_u16 (se_station x);; put_u16 (se_number x);; wret 15)%write.
(* common/writer.rs:321-330 *)
Definition w_entity_type_parameter (x : EntityTypeParameter) : W Z :=
  (put_u8 (etp_change x);; _ <- w_entity_type (etp_type x);; put_u16 0;; put_u32 0;; wret 15)%write.
(* common/writer.rs:332-345 *)
Definition w_entity_association (x : EntityAssociation) : W Z :=
  (put_u8 (ea_change x);; put_u8 (ea_status x);; put_u8 (ea_type x);; _ <- w_entity_id (ea_entity x);;
   put_u16 (ea_station x);; put_u8 (ea_connection x);; put_u8 (ea_member x);; put_u16 (ea_group x);; wret 15)%write.
(* common/writer.rs:245-279 *)
Definition w_variable_parameter (m : mode) (v : VariableParameter) : W Z :=
  match v with
  | VPArticulated x => (put_u8 0;; n <- w_articulated_part m x;; wret (1 + n))%write
  | VPAttached x => (put_u8 1;; n <- w_attached_part x;; wret (1 + n))%write
  | VPSeparation x => (put_u8 2;; n <- w_separation x;; wret (1 + n))%write
  | VPEntityType x => (put_u8 3;; n <- w_entity_type_parameter x;; wret (1 + n))%write
  | VPEntityAssociation x => (put_u8 4;; n <- w_entity_association x;; wret (1 + n))%write
  | VPUnspecified t b => (put_u8 t;; put_slice b;; wret 16)%write
  end.

(** values the wire format can represent: the type metric occupies the five low bits
    and the type class the others; an unspecified record does not use a known type number *)
Definition vp_canonical (v : VariableParameter) : Prop :=
  match v with
  | VPArticulated x => ap_metric x < 32 /\ ap_class x mod 32 = 0
  | VPUnspecified t _ => 4 < t
  | _ => True
  end.
Definition not_separation (v : VariableParameter) : Prop :=
  match v with VPSeparation _ => False | _ => True end.

Lemma wbind_assoc {O A B C} (w : wres O A) (f : A -> wres O B) (g : B -> wres O C) :
  wbind (wbind w f) g = wbind w (fun a => wbind (f a) g).
Proof.
  unfold wbind. destruct w as [bs a|]; [|reflexivity].
  destruct (f a) as [bs1 b|]; [|reflexivity]. destruct (g b) as [bs2 c|]; [|reflexivity]. now rewrite app_assoc.
Qed.
Lemma wbind_ret {O A B} (a : A) (f : A -> wres O B) : wbind (wret a) f = f a.
Proof. unfold wbind, wret. destruct (f a); reflexivity. Qed.

(** the writer post-processes the returned size only *)
Lemma RT_wmap {R R' A} (w : W R) (f : R -> R') (p : bparser A) x r L :
  RT w p x r L -> RT (wbind w (fun n => wret (f n))) p x (f r) L.
Proof.
  intros (b & -> & Hl & Hp). exists b. split; [|split; auto]. unfold wbind, wret. now rewrite app_nil_r.
Qed.

Lemma land31 c m : c mod 32 = 0 -> 0 <= m < 32 -> Z.land (c + m) 31 = m.
Proof.
  intros Hc Hm. change 31 with (Z.ones 5). rewrite Z.land_ones by lia. change (2^5) with 32.
  rewrite <- Z.add_mod_idemp_l, Hc by lia. apply Z.mod_small. lia.
Qed.
Lemma RT_articulated m x : wf_VariableParameter (VPArticulated x) -> vp_canonical (VPArticulated x) ->
  RT (w_articulated_part m x) p_articulated_part (VPArticulated x) 15 15.
Proof.
  destruct x as [c a me cl va]; cbn. intros (Hch & Hat & Hm & Hcl & Hv) (Hm32 & Hc32).
  assert (Hsum : u32 (cl + me)).
  { apply Z_div_exact_full_2 in Hc32; [|lia]. unfold u32 in *.
    assert (cl / 32 < 134217728) by (apply Z.div_lt_upper_bound; lia). lia. }
  unfold w_articulated_part, p_articulated_part. cbn [ap_change ap_attachment ap_metric ap_class ap_value].
  eapply RT_conv.
  - rt_step. rt_step. eapply RT_wpure; [apply add32_ok; unfold u32 in *; lia|].
    rt_step. cbv zeta. rewrite land31 by (assumption || range0). repeat rt_step.
  - repeat f_equal; lia.
  - reflexivity.
  - reflexivity.
Qed.
Lemma RT_attached x : wf_VariableParameter (VPAttached x) -> RT (w_attached_part x) p_attached_part (VPAttached x) 15 15.
Proof. destruct x; unfold w_attached_part, p_attached_part; cbn; intros; wfd. rt. Qed.
Lemma RT_etp x : wf_VariableParameter (VPEntityType x) -> RT (w_entity_type_parameter x) p_entity_type_vp (VPEntityType x) 15 15.
Proof. destruct x; unfold w_entity_type_parameter, p_entity_type_vp; cbn; intros; wfd. rt. Qed.
Lemma RT_entity_association x : wf_VariableParameter (VPEntityAssociation x) ->
  RT (w_entity_association x) p_entity_association (VPEntityAssociation x) 15 15.
Proof. destruct x; unfold w_entity_association, p_entity_association; cbn; intros; wfd. rt. Qed.

Lemma RT_variable_parameter m v : wf_VariableParameter v -> vp_canonical v -> not_separation v ->
  RT (w_variable_parameter m v) p_variable_parameter v 16 16.
Proof.
  intros Hw Hc Hs. unfold p_variable_parameter, w_variable_parameter. destruct v as [x|x|x|x|x|t b].
  - change 16 with (1 + 15). eapply RT_bind; [apply RT_u8; range|]. apply (RT_wmap _ (Z.add 1)), RT_articulated; assumption.
  - change 16 with (1 + 15). eapply RT_bind; [apply RT_u8; range|]. apply (RT_wmap _ (Z.add 1)), RT_attached; assumption.
  - contradiction.
  - change 16 with (1 + 15). eapply RT_bind; [apply RT_u8; range|]. apply (RT_wmap _ (Z.add 1)), RT_etp; assumption.
  - change 16 with (1 + 15). eapply RT_bind; [apply RT_u8; range|]. apply (RT_wmap _ (Z.add 1)), RT_entity_association; assumption.
  - cbn in Hw, Hc. destruct Hw as (Ht & Hb & Hl).
    eapply RT_conv; [|reflexivity|reflexivity|].
    eapply RT_bind; [apply RT_u8; range|].
    destruct (Z.eqb_spec t 0); [lia|]. destruct (Z.eqb_spec t 1); [lia|]. destruct (Z.eqb_spec t 2); [lia|].
    destruct (Z.eqb_spec t 3); [lia|]. destruct (Z.eqb_spec t 4); [lia|].
    eapply RT_bind; [apply RT_slice; symmetry; exact Hl|apply RT_ret].
    reflexivity.
Qed.
Global Hint Resolve RT_variable_parameter : rt.
(** the separation record: the writer emits the 16 octets of the standard *)
Lemma w_separation_len m x : exists bs, w_variable_parameter m (VPSeparation x) = WOk bs 16 /\ zlen bs = 16.
Proof. eexists. split; [reflexivity|]. rewrite ?zlen_app, ?be_zlen. reflexivity. Qed.
Lemma Ext_articulated : Ext p_articulated_part. Proof. unfold p_articulated_part; ext. Qed.
Lemma Ext_attached : Ext p_attached_part. Proof. unfold p_attached_part; ext. Qed.
Lemma Ext_separation : Ext p_separation. Proof. unfold p_separation; ext. Qed.
Lemma Ext_etp : Ext p_entity_type_vp. Proof. unfold p_entity_type_vp; ext. Qed.
Lemma Ext_entity_association : Ext p_entity_association. Proof. unfold p_entity_association; ext. Qed.
Global Hint Resolve Ext_articulated Ext_attached Ext_separation Ext_etp Ext_entity_association : ext.
Lemma Ext_variable_parameter : Ext p_variable_parameter. Proof. unfold p_variable_parameter; ext. Qed.
Global Hint Resolve Ext_variable_parameter : ext.
Lemma Safe_articulated : Safe p_articulated_part. Proof. unfold p_articulated_part; safe. Qed.
Lemma Safe_attached : Safe p_attached_part. Proof. unfold p_attached_part; safe. Qed.
Lemma Safe_separation : Safe p_separation. Proof. unfold p_separation; safe. Qed.
Lemma Safe_etp : Safe p_entity_type_vp. Proof. unfold p_entity_type_vp; safe. Qed.
Lemma Safe_entity_association : Safe p_entity_association. Proof. unfold p_entity_association; safe. Qed.
Global Hint Resolve Safe_articulated Safe_attached Safe_separation Safe_etp Safe_entity_association : safe.
Lemma Safe_variable_parameter : Safe p_variable_parameter. Proof. unfold p_variable_parameter; safe. Qed.
Global Hint Resolve Safe_variable_parameter : safe.
(** every variable parameter occupies exactly 16 octets of input *)
Lemma be_u_consumes n i r a : be_u n i = POk r a -> length i = (length r + n)%nat.
Proof.
  unfold be_u. destruct (Nat.ltb_spec (length i) n); [discriminate|]. intros E; inversion E; subst.
  rewrite skipn_length. lia.
Qed.

(** * BeamData, SupplyQuantity *)
(* common/model.rs:1509-1515 *)
Record BeamData := MkBeamData { bd_azc : Z; bd_azs : Z; bd_elc : Z; bd_els : Z; bd_sync : Z }.
Definition wf_BeamData b := u32 (bd_azc b) /\ u32 (bd_azs b) /\ u32 (bd_elc b) /\ u32 (bd_els b) /\ u32 (bd_sync b).
(* common/parser.rs:672-688 *)
Definition p_beam_data : bparser BeamData :=
  (a <- be_f32;; b <- be_f32;; c <- be_f32;; d <- be_f32;; e <- be_f32;; pret (MkBeamData a b c d e))%parse.
(* common/writer.rs:347-357 *)
Definition w_beam_data (b : BeamData) : W Z :=
  (put_f32 (bd_azc b);; put_f32 (bd_azs b);; put_f32 (bd_elc b);; put_f32 (bd_els b);; put_f32 (bd_sync b);; wret 20)%write.
Lemma RT_beam_data b : wf_BeamData b -> RT (w_beam_data b) p_beam_data b 20 20.
Proof. destruct b; unfold wf_BeamData, w_beam_data, p_beam_data; cbn; intros; wfd. rt. Qed.
Global Hint Resolve RT_beam_data : rt.
Lemma Ext_beam_data : Ext p_beam_data. Proof. unfold p_beam_data; ext. Qed.
Global Hint Resolve Ext_beam_data : ext.
Lemma Safe_beam_data : Safe p_beam_data. Proof. unfold p_beam_data; safe. Qed.
Global Hint Resolve Safe_beam_data : safe.

(* common/model.rs:1552-1555 *)
Record SupplyQuantity := MkSupplyQuantity { sq_type : EntityType; sq_quantity : Z }.
Definition wf_SupplyQuantity s := wf_EntityType (sq_type s) /\ u32 (sq_quantity s).
(* common/parser.rs:690-697 *)
Definition p_supply_quantity : bparser SupplyQuantity :=
  (t <- p_entity_type;; q <- be_f32;; pret (MkSupplyQuantity t q))%parse.
(* common/writer.rs:359-366 *)
Definition w_supply_quantity (s : SupplyQuantity) : W Z :=
  (n <- w_entity_type (sq_type s);; put_f32 (sq_quantity s);; wret (n + 4))%write.
Lemma RT_supply_quantity s : wf_SupplyQuantity s -> RT (w_supply_quantity s) p_supply_quantity s 12 12.
Proof. destruct s; unfold wf_SupplyQuantity, w_supply_quantity, p_supply_quantity; cbn; intros; wfd. rt. Qed.
Global Hint Resolve RT_supply_quantity : rt.
Lemma Ext_supply_quantity : Ext p_supply_quantity. Proof. unfold p_supply_quantity; ext. Qed.
Global Hint Resolve Ext_supply_quantity : ext.
Lemma Safe_supply_quantity : Safe p_supply_quantity. Proof. unfold p_supply_quantity; safe. Qed.
Global Hint Resolve Safe_supply_quantity : safe.

(** * RecordSet, RecordSpecification *)
(* common/model.rs:1591-1596 *)
Record RecordSet := MkRecordSet { rs_id : Z; rs_serial : Z; rs_length_bytes : Z; rs_records : list (list Z) }.
(* common/model.rs:1621-1627; [with_record_id(..).with_record_serial_number(..).with_records(..)] *)
Definition record_set_with_records (id serial : Z) (records : list (list Z)) : RecordSet :=
  MkRecordSet id serial (match records with r :: _ => zlen r mod 65536 | [] => 0 end) records.
Definition wf_RecordSet r := u32 (rs_id r) /\ u32 (rs_serial r) /\ u16 (rs_length_bytes r) /\ Forall bytes (rs_records r).
(* common/parser.rs:706-730; [record_length_bytes * record_count] is a u16 product *)
Definition p_record_set (m : mode) : bparser RecordSet :=
  (id <- be_u32;; serial <- be_u32;; _ <- be_u32;; bits <- be_u16;;
   let len := (bits + 7) / 8 in
   cnt <- be_u16;;
   recs <- count (take len) cnt;;
   total <- parith m (len * cnt);;
   pl <- p_padded total 8;;
   _ <- take (pl_padding pl);;
   pret (record_set_with_records id serial recs))%parse.
(* common/parser.rs:699-704 *)
Definition p_record_specification (m : mode) : bparser (list RecordSet) :=
  (n <- be_u32;; l <- count (p_record_set m) n;; pret l)%parse.
(* common/writer.rs:379-395 *)
Definition w_record_set (m : mode) (r : RecordSet) : W Z :=
  (put_u32 (rs_id r);; put_u32 (rs_serial r);; put_u32 0;;
   bits <- mul16 m (rs_length_bytes r) 8;; put_u16 bits;;
   put_u16 (zlen (rs_records r) mod 65536);;
   witer put_slice (rs_records r);;
   let records_bytes := zsum (map zlen (rs_records r)) mod 65536 in
   pl <- w_padded records_bytes 8;;
   put_bytes 0 (pl_padding pl);;
   a <- add16 m 16 records_bytes;; add16 m a (pl_padding pl mod 65536))%write.
(* common/writer.rs:368-377 *)
Definition w_record_specification (m : mode) (l : list RecordSet) : W Z :=
  (put_u32 (zlen l mod 4294967296);; n <- wmap_sum m (w_record_set m) l;; add16 m 4 n)%write.

(** a record set the wire format can represent: all records have the length the set
    announces, the announced length in bits and the total fit 16 bits *)
Definition rs_uniform (r : RecordSet) : Prop :=
  Forall (fun x => zlen x = rs_length_bytes r) (rs_records r) /\
  (rs_records r = [] -> rs_length_bytes r = 0).
Definition rs_size (r : RecordSet) : Z :=
  let n := rs_length_bytes r * zlen (rs_records r) in 16 + n + pad_to n 8.
Lemma rs_records_total r : rs_uniform r -> zsum (map zlen (rs_records r)) = rs_length_bytes r * zlen (rs_records r).
Proof.
  intros [Hu _]. apply zsum_const. intros x Hx. rewrite Forall_forall in Hu. now apply Hu.
Qed.
Lemma RT_record_set m r : wf_RecordSet r -> rs_uniform r -> rs_length_bytes r < 8192 -> rs_size r < 65536 ->
  zlen (rs_records r) < 65536 ->
  RT (w_record_set m r) (p_record_set m) r (rs_size r) (rs_size r).
Proof.
  intros (Hid & Hser & Hlen & Hb) Hu Hl Hsz Hcnt. unfold w_record_set, p_record_set, rs_size in *. cbv zeta in *.
  rewrite (rs_records_total r Hu).
  pose proof (zlen_nonneg (rs_records r)) as Hn. unfold u16 in Hlen.
  set (n := rs_length_bytes r * zlen (rs_records r)) in *.
  assert (Hn0 : 0 <= n) by (unfold n; nia).
  pose proof (pad_to_bound n 8) as Hpb.
  eapply RT_conv.
  - rt_step. rt_step. eapply RT_bind; [apply RT_u32; range|].
    eapply RT_wpure; [apply mul16_ok; lia|]. eapply RT_bind; [apply RT_u16; range|].
    rewrite (Z.mod_small (zlen (rs_records r))) by lia.
    eapply RT_bind; [apply RT_u16; range|].
    replace ((rs_length_bytes r * 8 + 7) / 8) with (rs_length_bytes r)
      by (rewrite Z.add_comm, Z.div_add by lia; change (7/8) with 0; lia).
    eapply RT_bind.
    + apply RT_witer with (len := zlen); [reflexivity|]. intros x Hx.
      destruct Hu as [Hu _]. rewrite Forall_forall in Hu. rewrite <- (Hu x Hx). now apply RT_slice.
    + fold n. rewrite (Z.mod_small n 65536) by lia.
      eapply RT_wpure; [apply w_padded_ok; lia|].
      eapply RT_ppure; [intros; apply parith_ok; lia|].
      eapply RT_ppure; [intros; apply p_padded_ok; lia|]. cbn [pl_padding].
      eapply RT_bind; [apply RT_pad; lia|].
      eapply RT_wpure; [apply add16_ok; lia|]. rewrite (Z.mod_small (pad_to n 8)) by lia.
      rewrite add16_ok by lia. apply RT_ret.
  - destruct r as [id ser len recs]; unfold record_set_with_records; cbn [rs_id rs_serial rs_records rs_length_bytes] in *.
    f_equal. destruct recs as [|x recs]; [symmetry; now apply Hu|].
    destruct Hu as [Hu _]. cbn [rs_records rs_length_bytes] in Hu.
    inversion Hu as [|? ? Hx _]; subst. apply Z.mod_small. lia.
  - cbn. lia.
  - rewrite (rs_records_total r Hu). fold n. lia.
Qed.
Global Hint Resolve RT_record_set : rt.
Lemma Ext_record_set m : Ext (p_record_set m). Proof. unfold p_record_set; cbv zeta; ext. Qed.
Global Hint Resolve Ext_record_set : ext.
Lemma Ext_record_specification m : Ext (p_record_specification m). Proof. unfold p_record_specification; ext. Qed.
Global Hint Resolve Ext_record_specification : ext.
Lemma Safe_record_set : Safe (p_record_set Wrapping).
Proof.
  unfold p_record_set. cbv zeta. do 4 safe_step.
  assert (0 <= (a2 + 7) / 8) by (apply Z.div_pos; range0).
  safe_step. eapply Safe_bind; [eapply Safe_count, Safe_take; lia|intros].
  safe_step. eapply Safe_bind; [apply Safe_padded; range0|]. intros pl ->. cbn [pl_padding].
  pose proof (pad_to_bound a5 8). safe.
Qed.
Global Hint Resolve Safe_record_set : safe.
Lemma Safe_record_specification : Safe (p_record_specification Wrapping). Proof. unfold p_record_specification; safe. Qed.
Global Hint Resolve Safe_record_specification : safe.

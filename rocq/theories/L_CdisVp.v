(** * Uncompressed variable parameters in C-DIS (lemmas and properties) *)
From Coq Require Import ZArith List Lia Bool.
From Verif Require Import Base CdisBase DisCommon DisHeader DisLists DisEntity CdisRecords CdisPdu CdisCodec1 L_CdisPdu.
Import ListNotations. Open Scope Z_scope.

Lemma uval_octets l : bytes l -> uval (to_bits l) = be_val l.
Proof.
  induction l as [|b l IH] using rev_ind; intros H; [reflexivity|]. apply bytes_app in H. destruct H as [H B]. inversion B as [|? ? B0]; subst.
  rewrite to_bits_app. unfold uval at 1, be_val at 1. rewrite !fold_left_app. change (fold_left (fun acc b0 => 2 * acc + Z.b2z b0) (to_bits l) 0) with (uval (to_bits l)).
  change (fold_left (fun acc b0 => acc * 256 + b0) l 0) with (be_val l). rewrite IH by exact H. rewrite uval_acc. cbn [fold_left]. unfold to_bits. cbn [flat_map]. rewrite app_nil_r.
  unfold octet_bits. rewrite ubits_zlen, uval_ubits by lia. change (2 ^ 8) with 256. now rewrite (Z.mod_small b) by lia.
Qed.
Lemma to_bits_zlen l : zlen (to_bits l) = 8 * zlen l.
Proof. induction l as [|x l IH]; [reflexivity|]. change (to_bits (x :: l)) with (octet_bits x ++ to_bits l). rewrite zlen_app, IH. unfold octet_bits. rewrite ubits_zlen by lia. unfold zlen. cbn [length]. lia. Qed.
Lemma take_octets n l r : bytes l -> zlen l = n -> btake (8 * n) (to_bits l ++ r) = POk r (be_val l).
Proof. intros H L. rewrite btake_app; [now rewrite uval_octets|]. rewrite to_bits_zlen. lia. Qed.
Lemma take_be k v r : 0 <= v < 256 ^ Z.of_nat k -> btake (8 * Z.of_nat k) (to_bits (be k v) ++ r) = POk r v.
Proof. intros H. rewrite (take_octets (Z.of_nat k)); [now rewrite be_val_be|apply be_bytes|apply be_zlen]. Qed.
Lemma take1 v r : u8 v -> btake 8 (to_bits (be 1 v) ++ r) = POk r v. Proof. intros H. apply (take_be 1 v r). unfold u8 in H. cbn. lia. Qed.
Lemma take2 v r : u16 v -> btake 16 (to_bits (be 2 v) ++ r) = POk r v. Proof. intros H. apply (take_be 2 v r). unfold u16 in H. cbn. lia. Qed.
Lemma take4 v r : u32 v -> btake 32 (to_bits (be 4 v) ++ r) = POk r v. Proof. intros H. apply (take_be 4 v r). unfold u32 in H. cbn. lia. Qed.
(** the octets that [w] writes are, bit by bit, read by [p] as [c] *)
Definition OT {A B} (w : W A) (p : bitparser B) (c : B) : Prop := exists bs r, w = WOk bs r /\ forall rest, p (to_bits bs ++ rest) = POk rest c.
Lemma OT_bind {A A' B B'} (w : W A) (f : A -> W A') (p : bitparser B) (k : B -> bitparser B') c d :
  OT w p c -> (forall a, OT (f a) (k c) d) -> OT (wbind w f) (pbind p k) d.
Proof.
  intros (bs & r & E & H) K. destruct (K r) as (bs' & r' & E' & H'). exists (bs ++ bs'), r'. unfold wbind. rewrite E, E'. split; [reflexivity|].
  intros rest. rewrite to_bits_app, <- app_assoc. unfold pbind. rewrite H. apply H'.
Qed.
Lemma OT_ret {A B} (a : A) (c : B) : OT (wret a) (pret c) c.
Proof. exists [], a. split; [reflexivity|]. reflexivity. Qed.
Lemma OT_sub {A A' B} (w : W A) (f : A -> W A') (p : bitparser B) c : OT w p c -> (forall a, OT (f a) (pret c) c) -> OT (wbind w f) p c.
Proof.
  intros (bs & r & E & H) K. destruct (K r) as (bs' & r' & E' & H'). exists (bs ++ bs'), r'. unfold wbind. rewrite E, E'. split; [reflexivity|].
  intros rest. rewrite to_bits_app, <- app_assoc. rewrite H. unfold pret in H'. specialize (H' rest). injection H' as H'. now rewrite H'.
Qed.
Lemma OT_u8 v : u8 v -> OT (put_u8 v) (btake 8) v. Proof. intros H. exists (be 1 v), tt. split; [reflexivity|]. intros r. now apply take1. Qed.
Lemma OT_u16 v : u16 v -> OT (put_u16 v) (btake 16) v. Proof. intros H. exists (be 2 v), tt. split; [reflexivity|]. intros r. now apply take2. Qed.
Lemma OT_u32 v : u32 v -> OT (put_u32 v) (btake 32) v. Proof. intros H. exists (be 4 v), tt. split; [reflexivity|]. intros r. now apply take4. Qed.
Definition cet_of (t : EntityType) : CEntityType := MkCEntityType (et_kind t) (et_domain t) (et_country t) (et_category t) (et_subcategory t) (et_specific t) (et_extra t).
Definition cid_of (e : EntityId) : CEntityId := MkCEntityId (sa_site (ei_addr e)) (sa_app (ei_addr e)) (ei_id e).
Ltac ot := repeat (first [eapply OT_bind; [first [apply OT_u8|apply OT_u16|apply OT_u32]; solve [assumption|range]|]; intros ? | apply OT_ret]).
Lemma OT_entity_type t : wf_EntityType t -> OT (w_entity_type t) p_cet_unc (cet_of t).
Proof. unfold wf_EntityType. intros (H1 & H2 & H3 & H4 & H5 & H6 & H7). unfold w_entity_type, p_cet_unc. ot. Qed.
Lemma OT_assoc {A A' A'' B} (w : W A) (f : A -> W A') (h : A' -> W A'') (p : bitparser B) c : OT (wbind w (fun a => wbind (f a) h)) p c -> OT (wbind (wbind w f) h) p c.
Proof.
  intros (bs & r & E & H). exists bs, r. split; [|exact H]. rewrite <- E. unfold wbind. destruct w as [b a|]; [|reflexivity]. destruct (f a) as [b' a'|]; [|reflexivity]. destruct (h a'); [|reflexivity].
  now rewrite app_assoc.
Qed.
Lemma OT_wret {A A' B} (a : A) (f : A -> W A') (p : bitparser B) c : OT (f a) p c -> OT (wbind (wret a) f) p c.
Proof. intros (bs & r & E & H). exists bs, r. split; [|exact H]. unfold wbind, wret. now rewrite E. Qed.
Lemma OT_entity_id e : wf_EntityId e -> OT (w_entity_id e) p_ceid_unc (cid_of e).
Proof.
  intros H. destruct e as [[s a] i]. unfold wf_EntityId, wf_SimulationAddress in H. cbn in H. wfd. unfold w_entity_id, w_simulation_address, p_ceid_unc. cbn [ei_addr ei_id sa_site sa_app].
  apply OT_assoc. eapply OT_bind; [now apply OT_u16|]. intros _. apply OT_assoc. eapply OT_bind; [now apply OT_u16|]. intros _. 
  apply OT_wret. eapply OT_bind; [now apply OT_u16|]. intros _. apply OT_ret.
Qed.
Lemma OT_map {A B B'} (w : W A) (p : bitparser B) (f : B -> B') c : OT w p c -> OT w (pbind p (fun b => pret (f b))) (f c).
Proof. intros (bs & r & E & H). exists bs, r. split; [exact E|]. intros rest. unfold pbind. now rewrite H. Qed.
Lemma unc_flag ty b rest : u8 ty -> p_cvp (false :: to_bits (be 1 ty ++ b) ++ rest) = p_cvp_body ty false (to_bits b ++ rest).
Proof.
  intros T. unfold p_cvp, pbind at 1. change (false :: to_bits (be 1 ty ++ b) ++ rest) with ([false] ++ (to_bits (be 1 ty ++ b) ++ rest)). rewrite btake_app by reflexivity.
  change (negb (uval [false] =? 0)) with false. cbv iota. unfold pbind. rewrite to_bits_app, <- app_assoc, take1 by exact T. reflexivity.
Qed.
Lemma unc_read {A B} (w : W A) (h : A -> W Z) ty (p : bitparser B) (mk : B -> CVariableParameter) c : u8 ty -> OT w p c -> p_cvp_body ty false = pbind p (fun b => pret (mk b)) ->
  forall bs n, wbind (put_u8 ty) (fun _ => wbind w h) = WOk bs n -> (forall a, exists k, h a = WOk [] k) -> forall rest, p_cvp (false :: to_bits bs ++ rest) = POk rest (mk c).
Proof.
  intros T (b & r & E & H) K bs n W N rest. unfold put_u8, put, wbind in W. rewrite E in W. destruct (N r) as [k Q]. rewrite Q in W. injection W as W _.
  assert (bs = be 1 ty ++ b) as -> by (rewrite <- W, app_nil_r; reflexivity).
  rewrite unc_flag, K by exact T. unfold pbind. now rewrite H.
Qed.
(*@C50 A variable parameter that a C-DIS sender leaves uncompressed is a 0 bit followed by the sixteen octets of the DIS record. Reading the octets that DIS writes for an attached
 part, a separation, an entity type or an association consumes exactly these and gives, translated to DIS, the same parameter. *)
Lemma cdis_uncompressed_parameter_pf : forall m v bs n rest, wf_VariableParameter v -> w_variable_parameter m v = WOk bs n ->
  match v with VPArticulated _ | VPUnspecified _ _ => False | _ => True end ->
  exists c, p_cvp (false :: to_bits bs ++ rest) = POk rest c /\ dec_vp c = v.
Proof.
  intros m v bs n rest W E K. destruct v as [x|x|x|x|x|t l]; try destruct K; cbn [wf_VariableParameter] in W; wfd; cbn [w_variable_parameter] in E.
  - eexists. split; [eapply (unc_read (w_attached_part x) _ 1 p_cattached_unc CVPAttached (MkCAttached (at_detached x) (at_attachment x) (at_parameter x) (cet_of (at_type x)))); [range| |reflexivity|exact E|intros a; eexists; reflexivity]|].
    + unfold w_attached_part, p_cattached_unc. ot. eapply OT_bind; [apply OT_entity_type; assumption|]. intros _. apply OT_ret.
    + destruct x as [? ? ? []]. reflexivity.
  - eexists. split; [eapply (unc_read (w_separation x) _ 2 p_cseparation_unc CVPSeparation (MkCSeparation (se_reason x) (se_pre x) (cid_of (se_parent x)) (se_station x) (DisCommon.se_number x))); [range| |reflexivity|exact E|intros a; eexists; reflexivity]|].
    + unfold w_separation, p_cseparation_unc. ot. eapply OT_bind; [apply OT_entity_id; assumption|]. intros _. ot.
    + destruct x as [? ? [[] ?] ? ?]. reflexivity.
  - eexists. split; [eapply (unc_read (w_entity_type_parameter x) _ 3 p_cetvp_unc CVPEntityType (MkCEntityTypeVP (etp_change x) (cet_of (etp_type x)))); [range| |reflexivity|exact E|intros a; eexists; reflexivity]|].
    + unfold w_entity_type_parameter, p_cetvp_unc. ot. eapply OT_bind; [apply OT_entity_type; assumption|]. intros _. ot.
    + destruct x as [? []]. reflexivity.
  - eexists. split; [eapply (unc_read (w_entity_association x) _ 4 p_cassociation_unc CVPAssociation
      (MkCAssociation (ea_change x) (ea_status x) (ea_type x) (cid_of (ea_entity x)) (ea_station x) (ea_connection x) (ea_member x) (ea_group x))); [range| |reflexivity|exact E|intros a; eexists; reflexivity]|].
    + unfold w_entity_association, p_cassociation_unc. ot. eapply OT_bind; [apply OT_entity_id; assumption|]. intros _. ot.
    + destruct x as [? ? ? [[] ?] ? ? ? ?]. reflexivity.
Qed.
(*@C50 An uncompressed articulated part is not read right: its value is lost (it arrives as zero), and the four padding octets at the end of the record are left to be read as what
 follows. *)
Lemma cdis_uncompressed_articulation_refuted_pf : forall m x bs n rest, wf_VariableParameter (VPArticulated x) -> vp_canonical (VPArticulated x) -> w_variable_parameter m (VPArticulated x) = WOk bs n ->
  exists c, p_cvp (false :: to_bits bs ++ rest) = POk (repeat false 32 ++ rest) c /\
    dec_vp c = VPArticulated (MkArticulatedPart (ap_change x) (ap_attachment x) (ap_metric x) (ap_class x) 0).
Proof.
  intros m x bs n rest W C E. cbn [wf_VariableParameter vp_canonical] in W, C. wfd. cbn [w_variable_parameter] in E.
  destruct x as [ch at_ me cl va]. cbn [ap_change ap_attachment ap_metric ap_class ap_value] in *.
  assert (S : u32 (cl + me)). { unfold u32 in *. pose proof (Z.div_mod cl 32 ltac:(lia)). lia. }
  assert (A : add32 m cl me = WOk [] (cl + me) :> W Z). { unfold add32. cbv zeta. unfold u32 in S. rewrite (proj2 (Z.leb_le 0 _)), (proj2 (Z.ltb_lt _ _)) by lia. reflexivity. }
  unfold w_articulated_part in E. cbn [ap_change ap_attachment ap_metric ap_class ap_value] in E. rewrite A in E.
  assert (Q : bs = be 1 0 ++ be 1 ch ++ be 2 at_ ++ be 4 (cl + me) ++ be 4 va ++ be 4 0).
  { unfold put_u8, put_u16, put_u32, put_f32, put, wbind, wret in E. injection E as E _. rewrite <- E, ?app_nil_r. reflexivity. }
  rewrite Q, unc_flag by range. unfold p_cvp_body. change (0 =? 0) with true. cbv iota. unfold p_carticulated_unc, pbind. rewrite !to_bits_app, <- !app_assoc.
  rewrite take1 by assumption. rewrite take2 by assumption. rewrite take4 by assumption. rewrite take4 by assumption. eexists. split; [reflexivity|].
  cbn [dec_vp car_change car_attachment car_metric car_class car_value]. rewrite land31. assert (M : (cl + me) mod 32 = me).
  { match goal with C : cl mod 32 = 0 |- _ => rewrite Z.add_mod, C by lia end. rewrite Z.add_0_l, Z.mod_mod by lia. apply Z.mod_small. unfold u32 in *. lia. }
  rewrite M. replace (cl + me - me) with cl by lia. assert (V : dec_cpv (MkCParameterValue 0 0 (Some va)) = 0) by (vm_compute; reflexivity). now rewrite V.
Qed.
(*@C50 Of an uncompressed parameter of an unknown type the fifteen octets after the type are left to be read as what follows. *)
Lemma cdis_uncompressed_unknown_refuted_pf : forall m t l rest bs n, 5 <= t < 256 -> zlen l = 15 -> w_variable_parameter m (VPUnspecified t l) = WOk bs n ->
  exists c, p_cvp (false :: to_bits bs ++ rest) = POk (to_bits l ++ rest) c.
Proof.
  intros m t l rest bs n T L E. cbn [w_variable_parameter] in E. unfold put_u8, put, put_slice, wbind, wret in E. injection E as E _.
  assert (bs = be 1 t ++ l) as -> by (rewrite <- E, app_nil_r; reflexivity). exists CVPUnspecified. 
  rewrite unc_flag by range. unfold p_cvp_body. rewrite !(proj2 (Z.eqb_neq t _)) by lia. reflexivity.
Qed.
(*@ex*)
Example cdis_uncompressed_example : exists bs, w_variable_parameter Checked (VPEntityAssociation (MkEntityAssociation 1 2 3 (MkEntityId (MkSimulationAddress 4 5) 6) 7 8 9 10)) = WOk bs 16 /\
  exists c, p_cvp (false :: to_bits bs ++ [true]) = POk [true] c /\ CAssociation_station match c with CVPAssociation a => a | _ => MkCAssociation 0 0 0 (MkCEntityId 0 0 0) 0 0 0 0 end = 7.
Proof. eexists. split; [reflexivity|]. eexists. split; vm_compute; reflexivity. Qed.

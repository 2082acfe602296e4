(** * Properties: CdisVp

    Theorems only: each is closed by the lemma of the same name in L_CdisVp.v. *)
From Coq Require Import ZArith List Lia Bool String Ascii.
From Verif Require Import Base CdisBase DisCommon DisHeader DisLists DisEntity CdisRecords CdisPdu CdisCodec1 L_CdisPdu L_CdisVp.
Import ListNotations. Open Scope Z_scope.

(** C50. A variable parameter that a C-DIS sender leaves uncompressed is a 0 bit followed by the sixteen octets of the DIS record. Reading the octets that DIS writes for an attached
 part, a separation, an entity type or an association consumes exactly these and gives, translated to DIS, the same parameter. *)
Theorem cdis_uncompressed_parameter : forall m v bs n rest, wf_VariableParameter v -> w_variable_parameter m v = WOk bs n ->
  match v with VPArticulated _ | VPUnspecified _ _ => False | _ => True end ->
  exists c, p_cvp (false :: to_bits bs ++ rest) = POk rest c /\ dec_vp c = v.
Proof. exact cdis_uncompressed_parameter_pf. Qed.
Print Assumptions cdis_uncompressed_parameter.

(** C50. An uncompressed articulated part is not read right: its value is lost (it arrives as zero), and the four padding octets at the end of the record are left to be read as what
 follows. *)
Theorem cdis_uncompressed_articulation_refuted : forall m x bs n rest, wf_VariableParameter (VPArticulated x) -> vp_canonical (VPArticulated x) -> w_variable_parameter m (VPArticulated x) = WOk bs n ->
  exists c, p_cvp (false :: to_bits bs ++ rest) = POk (repeat false 32 ++ rest) c /\
    dec_vp c = VPArticulated (MkArticulatedPart (ap_change x) (ap_attachment x) (ap_metric x) (ap_class x) 0).
Proof. exact cdis_uncompressed_articulation_refuted_pf. Qed.
Print Assumptions cdis_uncompressed_articulation_refuted.

(** C50. Of an uncompressed parameter of an unknown type the fifteen octets after the type are left to be read as what follows. *)
Theorem cdis_uncompressed_unknown_refuted : forall m t l rest bs n, 5 <= t < 256 -> zlen l = 15 -> w_variable_parameter m (VPUnspecified t l) = WOk bs n ->
  exists c, p_cvp (false :: to_bits bs ++ rest) = POk (to_bits l ++ rest) c.
Proof. exact cdis_uncompressed_unknown_refuted_pf. Qed.
Print Assumptions cdis_uncompressed_unknown_refuted.

Example cdis_uncompressed_example : exists bs, w_variable_parameter Checked (VPEntityAssociation (MkEntityAssociation 1 2 3 (MkEntityId (MkSimulationAddress 4 5) 6) 7 8 9 10)) = WOk bs 16 /\
  exists c, p_cvp (false :: to_bits bs ++ [true]) = POk [true] c /\ CAssociation_station match c with CVPAssociation a => a | _ => MkCAssociation 0 0 0 (MkCEntityId 0 0 0) 0 0 0 0 end = 7.
Proof. eexists. split; [reflexivity|]. eexists. split; vm_compute; reflexivity. Qed.

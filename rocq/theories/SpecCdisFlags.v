(** * The fields-present flags of a C-DIS PDU, read (C29)
    Which items of a body each flag stands for, most significant flag first. The flag of a plain item says exactly whether the item is in the
    PDU; the flag of a list says that its length is in the PDU (which may be zero). *)
From Coq Require Import ZArith List Bool.
From Verif Require Import Base DisCommon CdisBase CdisRecords CdisBodies1 CdisBodies2 CdisIff CdisPdu SpecCdisPdu.
Import ListNotations. Open Scope Z_scope.

Inductive flagged_item := Plain (there : bool) | Listed (some : bool).
(** what a flag on the wire says about an item of the PDU that was read *)
Definition agrees (flag : bool) (x : flagged_item) : Prop := match x with
  | Plain there => there = flag
  | Listed some => some = true -> flag = true
  end.
Definition plain {A} (o : option A) : flagged_item := Plain (present o).
Definition listed {A} (l : list A) : flagged_item := Listed (some_items l).
Definition both_lists (d : DatumSpecification) : list (list flagged_item) := [[listed (ds_fixed d)]; [listed (ds_variable d)]].
Definition flagged_items (b : CBody) : list (list flagged_item) := match b with
  | CBEntityState x => [[plain (CEntityState_force x)]; [listed (CEntityState_vps x)]; [plain (CEntityState_etype x)]; [plain (CEntityState_alt x)];
      [plain (CEntityState_velocity x)]; [plain (CEntityState_location x)]; [plain (CEntityState_orientation x)]; [plain (CEntityState_appearance x)];
      [plain (CEntityState_dr_other x)]; [plain (CEntityState_dr_acceleration x)]; [plain (CEntityState_dr_angular x)]; [plain (CEntityState_marking x)];
      [plain (CEntityState_capabilities x)]]
  | CBFire x => [[plain (CFire_mission x)]; [plain (CFire_warhead x); plain (CFire_fuze x)]; [plain (CFire_quantity x); plain (CFire_rate x)]; [plain (CFire_range x)]]
  | CBDetonation x => [[plain (CDetonation_warhead x); plain (CDetonation_fuze x)]; [plain (CDetonation_quantity x); plain (CDetonation_rate x)];
      [plain (CDetonation_material x); plain (CDetonation_force x)]; [listed (CDetonation_vps x)]]
  | CBActionRequest x => both_lists (CActionRequest_datums x)
  | CBActionResponse x => both_lists (CActionResponse_datums x)
  | CBDataQuery x => [[listed (CDataQuery_fixed x)]; [listed (CDataQuery_variable x)]]
  | CBSetData x => both_lists (CSetData_datums x)
  | CBData x => both_lists (CData_datums x)
  | CBEventReport x => both_lists (CEventReport_datums x)
  | CBComment x => both_lists (CComment_datums x)
  | CBDesignator x => [[plain (CDesignator_designated x); plain (CDesignator_spot_entity x)];
      [plain (CDesignator_code_name x); plain (CDesignator_code x); plain (CDesignator_power x); plain (CDesignator_wavelength x)];
      [plain (CDesignator_spot_location x)]; [plain (CDesignator_dr_algorithm x); plain (CDesignator_dr_acceleration x)]]
  | CBTransmitter x => [[plain (CTransmitter_rtype x)]; [listed (CTransmitter_vtps x)]; [plain (CTransmitter_antenna x)]; [plain (CTransmitter_relative x)];
      [plain (CTransmitter_ptype x); plain (CTransmitter_pattern x)];
      [plain (CTransmitter_frequency x); plain (CTransmitter_bandwidth x); plain (CTransmitter_power x); plain (CTransmitter_modulation x)];
      [plain (CTransmitter_crypto x); plain (CTransmitter_key x)]; [listed (CTransmitter_modparams x)]]
  | CBSignal x => [[plain (CSignal_rate x)]; [plain (CSignal_samples x)]]
  | CBIff x => [[plain (CIff_event x)]; [plain (CIff_antenna x)]; [plain (CIff_system x)]; [plain (CIff_specific x)];
      [plain (cfo_field1 (CIff_data x))]; [plain (cfo_field2 (CIff_data x))]; [plain (cfo_p1 (CIff_data x))]; [plain (cfo_p2 (CIff_data x))];
      [plain (cfo_p3 (CIff_data x))]; [plain (cfo_p4 (CIff_data x))]; [plain (cfo_p5 (CIff_data x))]; [plain (cfo_p6 (CIff_data x))]]
  | _ => []
  end.
(** the wire's flags describe the PDU that was read *)
Definition flags_describe (flags : list bool) (b : CBody) : Prop := Forall2 (fun f g => Forall (agrees f) g) flags (flagged_items b).
(** an item that is there *)
Definition item_there (x : flagged_item) : bool := match x with Plain b => b | Listed b => b end.

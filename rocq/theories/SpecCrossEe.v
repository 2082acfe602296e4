(** * Across the C-DIS wire: Electromagnetic Emission *)
From Coq Require Import ZArith List.
From Verif Require Import Base DisCommon DisHeader DisEmission DisPdu DisPacket.
Import ListNotations. Open Scope Z_scope.

(** an emission without emitter systems *)
Definition quiet_emission (p : Pdu) (x : ElectromagneticEmission) : Prop :=
  u8 (h_exercise (pdu_header p)) /\ h_type (pdu_header p) = 23 /\ pdu_body p = BElectromagneticEmission x /\ wf_EE x /\ EE_state_update x < 2 /\ EE_systems x = [].
(** the same emission with its emitter systems numbered differently: a number below 16 stays below 16 *)
Definition renumbered (x x' : ElectromagneticEmission) : Prop :=
  EE_emitting_entity_id x' = EE_emitting_entity_id x /\ EE_event_id x' = EE_event_id x /\ EE_state_update x' = EE_state_update x /\
  Forall2 (fun s s' => es_name s' = es_name s /\ es_function s' = es_function s /\ es_location s' = es_location s /\ es_beams s' = es_beams s /\ (es_number s < 16 <-> es_number s' < 16))
    (EE_systems x) (EE_systems x').

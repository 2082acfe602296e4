(** * Specification vocabulary: what the size of a serialized PDU depends on

    The parts of a PDU body whose serialization is not of a fixed size, whatever the type of the PDU, and when such a part is
    serialized with the right padding. *)
From Coq Require Import ZArith List.
From Verif Require Import Base DisCommon DisLists DisSimman DisLogistics DisWarfare DisEntity DisEmission DisRadio DisIff DisPdu.
Import ListNotations. Open Scope Z_scope.

(** the variable datums, record sets, variable parameters and texts (with the number of octets there is room for) of a body *)
Definition variable_datums (b : PduBody) : list VariableDatum := match b with
  | BActionRequest x => ActionRequest_variable_datum_records x | BActionRequestR x => ActionRequestR_variable_datum_records x
  | BActionResponse x => ActionResponse_variable_datum_records x | BActionResponseR x => ActionResponseR_variable_datum_records x
  | BComment x => Comment_variable_datum_records x | BCommentR x => CommentR_variable_datum_records x
  | BData x => Data_variable_datum_records x | BDataR x => DataR_variable_datum_records x
  | BSetData x => SetData_variable_datum_records x | BSetDataR x => SetDataR_variable_datum_records x
  | BEventReport x => EventReport_variable_datum_records x | BEventReportR x => EventReportR_variable_datum_records x
  | BAggregateState x => AggregateState_variable_datums x
  | _ => [] end.
Definition record_sets (b : PduBody) : list RecordSet := match b with
  | BRecordR x => RecordR_record_specification x | BSetRecordR x => SetRecordR_record_specification x
  | BTransferOwnership x => TransferOwnership_record_specification x | _ => [] end.
Definition variable_parameters (b : PduBody) : list VariableParameter := match b with
  | BEntityState x => EntityState_variable_parameters x | BEntityStateUpdate x => EntityStateUpdate_variable_parameters x
  | BDetonation x => Detonation_variable_parameters x | _ => [] end.
Definition texts (b : PduBody) : list (Z * list Z) := match b with
  | BEntityState x => [(11, mk_string (EntityState_marking x))]
  | BAggregateState x => [(31, mk_string (AggregateState_marking x))]
  | _ => [] end.

(** a text no longer than the room for it *)
Definition text_fits (t : Z * list Z) : Prop := zlen (snd t) <= fst t.
(** a datum of a whole number of 64-bit words, under 8 KiB *)
Definition datum_whole (d : VariableDatum) : Prop := zlen (vd_value d) mod 8 = 0 /\ zlen (vd_value d) < 8184.
(** records of the length the set announces *)
Definition set_uniform (r : RecordSet) : Prop :=
  Forall (fun x => zlen x = rs_length_bytes r) (rs_records r) /\ (rs_records r = [] -> rs_length_bytes r = 0) /\
  rs_length_bytes r < 8192 /\ zlen (rs_records r) < 65536.
(** an articulated part whose type class and type metric add up to at most 32 bits *)
Definition vp_plain (v : VariableParameter) : Prop := match v with VPArticulated x => ap_class x + ap_metric x < 4294967296 | _ => True end.

(** a body all of whose parts are of these kinds; nothing is asked of counts, enumerations, bit fields or of the header *)
Definition sized (b : PduBody) : Prop :=
  Forall datum_whole (variable_datums b) /\ Forall set_uniform (record_sets b) /\ Forall vp_plain (variable_parameters b) /\ Forall text_fits (texts b).

(** the padding octets that follow attribute records *)
Definition attribute_padding (b : PduBody) : Z := match b with
  | BAttribute x => zsum (map (fun s => zsum (map (fun r => pad_to (6 + zlen (ar_fields r)) 8) (as_records s))) (Attribute_sets x))
  | _ => 0 end.

(** * What a relay of C-DIS PDUs can pass on (C60)

    A relay parses C-DIS octets and serializes the PDUs again.  [passes_on b] lists everything that keeps a body that has
    been read from being written so that it can be read again; all else a reader can produce does pass.  The reader itself is
    not mentioned. *)
From Coq Require Import ZArith List.
From Verif Require Import Base CdisBase DisCommon DisLists DisIff CdisRecords CdisBodies1 CdisBodies2 CdisIff CdisPdu SpecCdisPdu.
Import ListNotations. Open Scope Z_scope.

(** the altitude has room in the 24 bits of its field (the reader gives altitudes from - 2^20 to 2^24 - 1, [cdis_altitude_read]) *)
Definition altitude_passes (x : CWorldCoordinates) : Prop := - 2 ^ 20 <= cwc_alt x < 2 ^ 23.
(** no letter Y in a marking in the five-bit code, whose encoder has no code for it *)
Definition marking_passes (x : CMarking) : Prop := cm_six x = false -> ~ In 89 (cm_chars x).
(** no variable datum longer than 2047 octets, the most the 14-bit length in bits can announce in whole octets *)
Definition datums_pass (d : DatumSpecification) : Prop := Forall (fun v => zlen (vd_value v) <= 2047) (ds_variable d).
(** every variable parameter is of a known kind and fits the compressed form (which [fits_CVariableParameter] spells out): one read in the
    uncompressed form is written in the compressed one *)
Definition parameters_pass (l : list CVariableParameter) : Prop := Forall fits_CVariableParameter l.
(** the length of an IFF layer in bits (of layer 2 both as read and with the azimuth centre in the place of the other angles), its header counted twice as the writer does, has room in 14 bits *)
Definition layer_length_passes (n : Z) : Prop := 26 + n < 2 ^ 14.
(** the system type is there and is that of a transponder or an interrogator: for any other the reader skips the basic data of layers 3 and 4
    and fills in a default, which the writer writes *)
Definition kind_known (x : CIff) : Prop := exists s, CIff_system x = Some s /\ In (si_type s) [1; 2; 3; 4; 5; 6; 7; 8; 9; 10; 11].
(** the aircraft identification, after the reader has replaced malformed octets by three octets each, is still at most 15 octets *)
Definition identification_passes (b : ModeSBasicData) : Prop := match b with MSTransponder x => zlen (mst_id x) <= 15 | MSInterrogator _ => True end.
Definition opt_passes {A} (P : A -> Prop) (o : option A) : Prop := forall a, o = Some a -> P a.

Definition passes_on (b : CBody) : Prop := match b with
  | CBEntityState x => opt_passes altitude_passes (CEntityState_location x) /\ opt_passes marking_passes (CEntityState_marking x) /\ parameters_pass (CEntityState_vps x)
  | CBFire x => altitude_passes (CFire_location x)
  | CBDetonation x => altitude_passes (CDetonation_location x) /\ parameters_pass (CDetonation_vps x)
  | CBActionRequest x => datums_pass (CActionRequest_datums x)
  | CBActionResponse x => datums_pass (CActionResponse_datums x)
  | CBSetData x => datums_pass (CSetData_datums x)
  | CBData x => datums_pass (CData_datums x)
  | CBEventReport x => datums_pass (CEventReport_datums x)
  | CBComment x => datums_pass (CComment_datums x)
  | CBEmission x => CEmission_systems x = []
  | CBDesignator x => opt_passes altitude_passes (CDesignator_spot_location x)
  | CBTransmitter x => opt_passes altitude_passes (CTransmitter_antenna x) /\ CTransmitter_vtps x <> []
  | CBIff x =>
      (forall l, CIff_layer2 x = Some l -> layer_length_passes (len_cl2 l) /\ layer_length_passes (len_cl2 l - excess_beam_data (cl2_beam l))) /\
      (forall l, CIff_layer3 x = Some l -> layer_length_passes (len_cl3 l) /\ kind_known x) /\
      (forall l, CIff_layer4 x = Some l -> layer_length_passes (len_cl4 l) /\ kind_known x /\ identification_passes (cl4_basic l)) /\
      (forall l, CIff_layer5 x = Some l -> layer_length_passes (len_cl5 l))
  | _ => True
  end.
(** the bits the PDUs take *)
Definition bits_taken (ps : list CPdu) : Z := total (fun p => cpdu_length p - excess_cbody (cp_body p)) ps.
(** [cdis_hop l l']: writing the PDUs [l], in a build and with a buffer that has room, and reading what was written gives [l'] *)
Definition cdis_hop (l l' : list CPdu) : Prop := exists m buf buf' n, bits_taken l <= zlen buf /\ serialize_all m l buf 0 = Some (buf', n) /\
  cparse (to_octets (firstn (Z.to_nat n) buf')) = CParsed l'.
(** any number of hops *)
Inductive cdis_hops : list CPdu -> list CPdu -> Prop :=
| hops_none l : cdis_hops l l
| hops_more l l1 l2 : cdis_hops l l1 -> cdis_hop l1 l2 -> cdis_hops l l2.

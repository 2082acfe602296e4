(** * C-DIS PDUs, packets

    Models cdis-assemble/src/{lib,parsing,writing}.rs: CdisPdu, CdisBody, finalize_from_parts, serialize, parse, is_supported, is_implemented,
    CdisInteraction. Generated mechanically, one line per PDU type. *)
From Coq Require Import ZArith List Lia Bool.
From Verif Require Import Base DisCommon DisHeader CdisBase CdisRecords CdisBodies1 CdisBodies2 CdisIff.
Import ListNotations. Open Scope Z_scope.

(* lib.rs:129-154 *)
Inductive CBody :=
| CBUnsupported
| CBEntityState (x : CEntityState)
| CBFire (x : CFire)
| CBDetonation (x : CDetonation)
| CBCollision (x : CCollision)
| CBCreateEntity (x : CCreateEntity)
| CBRemoveEntity (x : CRemoveEntity)
| CBStartResume (x : CStartResume)
| CBStopFreeze (x : CStopFreeze)
| CBAcknowledge (x : CAcknowledge)
| CBActionRequest (x : CActionRequest)
| CBActionResponse (x : CActionResponse)
| CBDataQuery (x : CDataQuery)
| CBSetData (x : CSetData)
| CBData (x : CData)
| CBEventReport (x : CEventReport)
| CBComment (x : CComment)
| CBEmission (x : CEmission)
| CBDesignator (x : CDesignator)
| CBTransmitter (x : CTransmitter)
| CBSignal (x : CSignal)
| CBReceiver (x : CReceiver)
| CBIff (x : CIff).
(** CdisBody::body_length, lib.rs:156-184: the declared length in bits *)
Definition len_cbody (b : CBody) : Z := match b with
  | CBUnsupported => 0
  | CBEntityState x => len_ces x
  | CBFire x => len_cfire x
  | CBDetonation x => len_cdetonation x
  | CBCollision x => len_ccollision x
  | CBCreateEntity x => len_ccreate x
  | CBRemoveEntity x => len_cremove x
  | CBStartResume x => len_cstart x
  | CBStopFreeze x => len_cstop x
  | CBAcknowledge x => len_cack x
  | CBActionRequest x => len_cactreq x
  | CBActionResponse x => len_cactres x
  | CBDataQuery x => len_cquery x
  | CBSetData x => len_csetdata x
  | CBData x => len_cdata x
  | CBEventReport x => len_cevent x
  | CBComment x => len_ccomment x
  | CBEmission x => len_cemission x
  | CBDesignator x => len_cdesignator x
  | CBTransmitter x => len_ctransmitter x
  | CBSignal x => len_csignal x
  | CBReceiver x => len_creceiver x
  | CBIff x => len_ciff x
  end.
(** the bits that are written *)
Definition bits_cbody (b : CBody) : Z := match b with
  | CBUnsupported => 0
  | CBEntityState x => bits_ces x
  | CBFire x => bits_cfire x
  | CBDetonation x => bits_cdetonation x
  | CBCollision x => bits_ccollision x
  | CBCreateEntity x => bits_ccreate x
  | CBRemoveEntity x => bits_cremove x
  | CBStartResume x => bits_cstart x
  | CBStopFreeze x => bits_cstop x
  | CBAcknowledge x => bits_cack x
  | CBActionRequest x => bits_cactreq x
  | CBActionResponse x => bits_cactres x
  | CBDataQuery x => bits_cquery x
  | CBSetData x => bits_csetdata x
  | CBData x => bits_cdata x
  | CBEventReport x => bits_cevent x
  | CBComment x => bits_ccomment x
  | CBEmission x => bits_cemission x
  | CBDesignator x => bits_cdesignator x
  | CBTransmitter x => bits_ctransmitter x
  | CBSignal x => bits_csignal x
  | CBReceiver x => bits_creceiver x
  | CBIff x => bits_ciff x
  end.
(** SerializeCdisPdu for CdisBody, writing.rs:34-66 *)
Definition w_cbody (m : mode) (b : CBody) : BW := match b with
  | CBUnsupported => wret tt
  | CBEntityState x => w_ces m x
  | CBFire x => w_cfire m x
  | CBDetonation x => w_cdetonation m x
  | CBCollision x => w_ccollision m x
  | CBCreateEntity x => w_ccreate m x
  | CBRemoveEntity x => w_cremove m x
  | CBStartResume x => w_cstart m x
  | CBStopFreeze x => w_cstop m x
  | CBAcknowledge x => w_cack m x
  | CBActionRequest x => w_cactreq m x
  | CBActionResponse x => w_cactres m x
  | CBDataQuery x => w_cquery m x
  | CBSetData x => w_csetdata m x
  | CBData x => w_cdata m x
  | CBEventReport x => w_cevent m x
  | CBComment x => w_ccomment m x
  | CBEmission x => w_cemission m x
  | CBDesignator x => w_cdesignator m x
  | CBTransmitter x => w_ctransmitter m x
  | CBSignal x => w_csignal m x
  | CBReceiver x => w_creceiver m x
  | CBIff x => w_ciff m x
  end.
(** what is read back *)
Definition img_cbody (b : CBody) : CBody := match b with
  | CBUnsupported => CBUnsupported
  | CBEntityState x => CBEntityState (img_ces x)
  | CBFire x => CBFire (img_cfire x)
  | CBDetonation x => CBDetonation (img_cdetonation x)
  | CBCollision x => CBCollision x
  | CBCreateEntity x => CBCreateEntity x
  | CBRemoveEntity x => CBRemoveEntity x
  | CBStartResume x => CBStartResume x
  | CBStopFreeze x => CBStopFreeze x
  | CBAcknowledge x => CBAcknowledge x
  | CBActionRequest x => CBActionRequest x
  | CBActionResponse x => CBActionResponse x
  | CBDataQuery x => CBDataQuery x
  | CBSetData x => CBSetData x
  | CBData x => CBData x
  | CBEventReport x => CBEventReport x
  | CBComment x => CBComment x
  | CBEmission x => CBEmission (img_cemission x)
  | CBDesignator x => CBDesignator (img_cdesignator x)
  | CBTransmitter x => CBTransmitter (img_ctransmitter x)
  | CBSignal x => CBSignal x
  | CBReceiver x => CBReceiver x
  | CBIff x => CBIff (img_ciff x)
  end.
(** CdisBody::originator, lib.rs:186-213 and */model.rs *)
Definition corig (b : CBody) : option CEntityId := match b with
  | CBUnsupported => None
  | CBEntityState x => Some (CEntityState_id x)
  | CBFire x => Some (CFire_firing x)
  | CBDetonation x => Some (CDetonation_source x)
  | CBCollision x => Some (CCollision_issuing x)
  | CBCreateEntity x => Some (CCreateEntity_orig x)
  | CBRemoveEntity x => Some (CRemoveEntity_orig x)
  | CBStartResume x => Some (CStartResume_orig x)
  | CBStopFreeze x => Some (CStopFreeze_orig x)
  | CBAcknowledge x => Some (CAcknowledge_orig x)
  | CBActionRequest x => Some (CActionRequest_orig x)
  | CBActionResponse x => Some (CActionResponse_orig x)
  | CBDataQuery x => Some (CDataQuery_orig x)
  | CBSetData x => Some (CSetData_orig x)
  | CBData x => Some (CData_orig x)
  | CBEventReport x => Some (CEventReport_orig x)
  | CBComment x => Some (CComment_orig x)
  | CBEmission x => Some (CEmission_id x)
  | CBDesignator x => Some (CDesignator_id x)
  | CBTransmitter x => Some (CTransmitter_radio x)
  | CBSignal x => Some (CSignal_radio x)
  | CBReceiver x => Some (CReceiver_radio x)
  | CBIff x => Some (CIff_emitting x)
  end.
(** CdisBody::receiver, lib.rs:215-241 and */model.rs *)
Definition crecv (b : CBody) : option CEntityId := match b with
  | CBUnsupported => None
  | CBEntityState x => None
  | CBFire x => Some (CFire_target x)
  | CBDetonation x => Some (CDetonation_target x)
  | CBCollision x => Some (CCollision_colliding x)
  | CBCreateEntity x => Some (CCreateEntity_recv x)
  | CBRemoveEntity x => Some (CRemoveEntity_recv x)
  | CBStartResume x => Some (CStartResume_recv x)
  | CBStopFreeze x => Some (CStopFreeze_recv x)
  | CBAcknowledge x => Some (CAcknowledge_recv x)
  | CBActionRequest x => Some (CActionRequest_recv x)
  | CBActionResponse x => Some (CActionResponse_recv x)
  | CBDataQuery x => Some (CDataQuery_recv x)
  | CBSetData x => Some (CSetData_recv x)
  | CBData x => Some (CData_recv x)
  | CBEventReport x => Some (CEventReport_recv x)
  | CBComment x => Some (CComment_recv x)
  | CBEmission x => None
  | CBDesignator x => CDesignator_designated x
  | CBTransmitter x => None
  | CBSignal x => None
  | CBReceiver x => Some (CReceiver_tradio x)
  | CBIff x => None
  end.
(** the PDU type of a body, for those that have one *)
Definition ctype_of (b : CBody) : option Z := match b with
  | CBUnsupported => None
  | CBEntityState x => Some 1
  | CBFire x => Some 2
  | CBDetonation x => Some 3
  | CBCollision x => Some 4
  | CBCreateEntity x => Some 11
  | CBRemoveEntity x => Some 12
  | CBStartResume x => Some 13
  | CBStopFreeze x => Some 14
  | CBAcknowledge x => Some 15
  | CBActionRequest x => Some 16
  | CBActionResponse x => Some 17
  | CBDataQuery x => Some 18
  | CBSetData x => Some 19
  | CBData x => Some 20
  | CBEventReport x => Some 21
  | CBComment x => Some 22
  | CBEmission x => Some 23
  | CBDesignator x => Some 24
  | CBTransmitter x => Some 25
  | CBSignal x => Some 26
  | CBReceiver x => Some 27
  | CBIff x => Some 28
  end.
(** every field fits its field on the wire (and paired optional fields come in pairs) *)
Definition wfits_cbody (b : CBody) : Prop := match b with
  | CBUnsupported => True
  | CBEntityState x => fits_CEntityState x
  | CBFire x => fits_CFire x
  | CBDetonation x => fits_CDetonation x
  | CBCollision x => fits_CCollision x
  | CBCreateEntity x => fits_CCreateEntity x
  | CBRemoveEntity x => fits_CRemoveEntity x
  | CBStartResume x => fits_CStartResume x
  | CBStopFreeze x => fits_CStopFreeze x
  | CBAcknowledge x => fits_CAcknowledge x
  | CBActionRequest x => fits_CActionRequest x
  | CBActionResponse x => fits_CActionResponse x
  | CBDataQuery x => fits_CDataQuery x
  | CBSetData x => fits_CSetData x
  | CBData x => fits_CData x
  | CBEventReport x => fits_CEventReport x
  | CBComment x => fits_CComment x
  | CBEmission x => wfits_CEmission x
  | CBDesignator x => fits_CDesignator x
  | CBTransmitter x => fits_CTransmitter x
  | CBSignal x => fits_CSignal x
  | CBReceiver x => fits_CReceiver x
  | CBIff x => wfits_CIff x
  end.
(** and the reader can read it back *)
Definition fits_cbody (b : CBody) : Prop := match b with
  | CBUnsupported => True
  | CBEntityState x => fits_CEntityState x
  | CBFire x => fits_CFire x
  | CBDetonation x => fits_CDetonation x
  | CBCollision x => fits_CCollision x
  | CBCreateEntity x => fits_CCreateEntity x
  | CBRemoveEntity x => fits_CRemoveEntity x
  | CBStartResume x => fits_CStartResume x
  | CBStopFreeze x => fits_CStopFreeze x
  | CBAcknowledge x => fits_CAcknowledge x
  | CBActionRequest x => fits_CActionRequest x
  | CBActionResponse x => fits_CActionResponse x
  | CBDataQuery x => fits_CDataQuery x
  | CBSetData x => fits_CSetData x
  | CBData x => fits_CData x
  | CBEventReport x => fits_CEventReport x
  | CBComment x => fits_CComment x
  | CBEmission x => fits_CEmission x
  | CBDesignator x => fits_CDesignator x
  | CBTransmitter x => fits_CTransmitter x /\ tx_ok x
  | CBSignal x => fits_CSignal x
  | CBReceiver x => fits_CReceiver x
  | CBIff x => fits_CIff x
  end.
(** is_supported, lib.rs:264-291, and is_implemented, lib.rs:302-335: the same 22 types *)
Definition is_supported (ty : Z) : bool := existsb (Z.eqb ty) [1; 2; 3; 4; 11; 12; 13; 14; 15; 16; 17; 18; 19; 20; 21; 22; 23; 24; 25; 26; 27; 28].
Definition is_implemented (ty : Z) : bool := existsb (Z.eqb ty) [1; 2; 3; 4; 11; 12; 13; 14; 15; 16; 17; 18; 19; 20; 21; 22; 23; 24; 25; 26; 27; 28].
(** cdis_body, parsing.rs:59-92 *)
Definition p_cbody (ty : Z) : bitparser CBody :=
  if ty =? 1 then (x <- p_ces;; pret (CBEntityState x))%parse else
  if ty =? 2 then (x <- p_cfire;; pret (CBFire x))%parse else
  if ty =? 3 then (x <- p_cdetonation;; pret (CBDetonation x))%parse else
  if ty =? 4 then (x <- p_ccollision;; pret (CBCollision x))%parse else
  if ty =? 11 then (x <- p_ccreate;; pret (CBCreateEntity x))%parse else
  if ty =? 12 then (x <- p_cremove;; pret (CBRemoveEntity x))%parse else
  if ty =? 13 then (x <- p_cstart;; pret (CBStartResume x))%parse else
  if ty =? 14 then (x <- p_cstop;; pret (CBStopFreeze x))%parse else
  if ty =? 15 then (x <- p_cack;; pret (CBAcknowledge x))%parse else
  if ty =? 16 then (x <- p_cactreq;; pret (CBActionRequest x))%parse else
  if ty =? 17 then (x <- p_cactres;; pret (CBActionResponse x))%parse else
  if ty =? 18 then (x <- p_cquery;; pret (CBDataQuery x))%parse else
  if ty =? 19 then (x <- p_csetdata;; pret (CBSetData x))%parse else
  if ty =? 20 then (x <- p_cdata;; pret (CBData x))%parse else
  if ty =? 21 then (x <- p_cevent;; pret (CBEventReport x))%parse else
  if ty =? 22 then (x <- p_ccomment;; pret (CBComment x))%parse else
  if ty =? 23 then (x <- p_cemission;; pret (CBEmission x))%parse else
  if ty =? 24 then (x <- p_cdesignator;; pret (CBDesignator x))%parse else
  if ty =? 25 then (x <- p_ctransmitter;; pret (CBTransmitter x))%parse else
  if ty =? 26 then (x <- p_csignal;; pret (CBSignal x))%parse else
  if ty =? 27 then (x <- p_creceiver;; pret (CBReceiver x))%parse else
  if ty =? 28 then (x <- p_ciff;; pret (CBIff x))%parse else
  pret CBUnsupported.
(** the body belongs to the PDU type *)
Definition body_matches (ty : Z) (b : CBody) : Prop := match ctype_of b with Some t => ty = t | None => is_supported ty = false end.
(* lib.rs:87-91 *)
Record CPdu := MkCPdu { cp_header : CHeader; cp_body : CBody }.
(* writing.rs:24-32 *)
Definition w_cpdu (m : mode) (p : CPdu) : BW := (w_cheader (cp_header p);; w_cbody m (cp_body p);; wret tt)%write.
(* parsing.rs:49-57 *)
Definition p_cpdu : bitparser CPdu := (h <- p_cheader;; b <- p_cbody (ch_type h);; pret (MkCPdu h b))%parse.
(* pdu_length, lib.rs:108-112 *)
Definition cpdu_length (p : CPdu) : Z := len_cheader (cp_header p) + len_cbody (cp_body p).
(* finalize_from_parts, lib.rs:94-106: [None] keeps the header's timestamp *)
Definition cfinalize (h : CHeader) (b : CBody) (ts : option Z) : CPdu :=
  MkCPdu (MkCHeader (ch_version h) (ch_exercise h) (ch_type h) (match ts with Some t => t | None => ch_timestamp h end) ((len_cheader h + len_cbody b) mod 65536) (ch_status h)) b.
Definition bits_cpdu (p : CPdu) : Z := len_cheader (cp_header p) + bits_cbody (cp_body p).
Definition img_cpdu (p : CPdu) : CPdu := MkCPdu (cp_header p) (img_cbody (cp_body p)).
Definition fits_CPdu (p : CPdu) : Prop := fits_CHeader (cp_header p) /\ body_matches (ch_type (cp_header p)) (cp_body p) /\ fits_cbody (cp_body p).
Definition wfits_CPdu (p : CPdu) : Prop := fits_CHeader (cp_header p) /\ wfits_cbody (cp_body p).

(** octets as bits, most significant first, and back *)
Definition octet_bits (v : Z) : list bool := ubits 8 v.
Definition to_bits (l : list Z) : list bool := flat_map octet_bits l.
Fixpoint to_octets_fuel (fuel : nat) (l : list bool) : list Z := match fuel with O => [] | S f =>
  match l with [] => [] | _ => uval (firstn 8 l ++ repeat false (8 - length l)) :: to_octets_fuel f (skipn 8 l) end end.
(** the octets that hold the bits, the last one filled up with zeroes *)
Definition to_octets (l : list bool) : list Z := to_octets_fuel (length l) l.
(* parse, parsing.rs:36-47: [None] is CdisError::ParseError; whatever follows the last PDU that could be read is dropped *)
Inductive cparse_result := CParsed (l : list CPdu) | CParseError | CParsePanic.
Definition cparse_bits (i : list bool) : cparse_result := match many1 zlen p_cpdu i with
  | POk _ l => CParsed l | PErr _ => CParseError | PPanic => CParsePanic end.
Definition cparse (i : list Z) : cparse_result := cparse_bits (to_bits i).
(** MTU_BITS octets of buffer, writing.rs:9, constants.rs *)
Definition cbuffer_bits : Z := 89600.
(* CdisPdu::serialize on a buffer at a cursor *)
Definition cserialize (m : mode) (p : CPdu) (buf : list bool) (cursor : Z) : option (list bool * Z) := run_at (w_cpdu m p) buf cursor.

(** ** Round trip *)
Lemma BLen_ctransmitter m x : fits_CTransmitter x -> BLen (w_ctransmitter m x) (bits_ctransmitter x).
Proof.
  intros H. unfold fits_CTransmitter in H. destruct H as (H0 & H1 & H2 & H3 & H4 & H5 & H6 & H7 & H8 & H9 & H10 & H11 & H12 & H13 & H14 & H15 & H16 & H17 & H18 & H19 & H20).
  rewrite Forall_forall in H17. destruct H0. unfold w_ctransmitter, bits_ctransmitter.
  eapply BLen_conv; [|].
  { eapply BLen_bind; [apply BLen_put; lia|]. eapply BLen_bind; [eapply BLen_of, BRT_units2; assumption|]. eapply BLen_bind; [apply BLen_put; lia|].
    eapply BLen_bind; [eapply BLen_of, BRT_ceid; assumption|]. eapply BLen_bind; [eapply BLen_of, BRT_uvint16; assumption|].
    eapply BLen_bind; [apply BLen_opt with (len := len_cet); intros; eapply BLen_of, BRT_cet; auto|]. eapply BLen_bind; [apply BLen_put; lia|].
    eapply BLen_bind; [eapply BLen_of, BRT_uvint8; assumption|].
    eapply BLen_bind with (L1 := cnt_bits (CTransmitter_vtps x)).
    { unfold w_cnt, cnt_bits. pose proof (zlen_nonneg (CTransmitter_vtps x)). destruct (nonempty (CTransmitter_vtps x)); [|apply BLen_ret].
      rewrite Z.mod_small by lia. eapply BLen_of, BRT_uvint8. unfold ub; change (2 ^ 8) with 256; lia. }
    eapply BLen_bind; [apply BLen_opt with (len := len_cwc); intros; eapply BLen_of, BRT_cwc; auto|].
    eapply BLen_bind; [apply BLen_opt with (len := len_cecv); intros; eapply BLen_of, BRT_cecv; auto|].
    eapply BLen_bind; [apply BLen_opt with (len := fun _ => 3); intros; apply BLen_put; lia|].
    eapply BLen_bind; [apply BLen_opt with (len := fun _ => 10); intros; apply BLen_put; lia|].
    eapply BLen_bind; [apply BLen_opt with (len := len_ctf); intros; eapply BLen_of, BRT_ctf; auto|].
    eapply BLen_bind; [apply BLen_opt with (len := len_ctb); intros; eapply BLen_of, BRT_ctb; auto|].
    eapply BLen_bind; [apply BLen_opt with (len := fun _ => 8); intros; apply BLen_put; lia|].
    eapply BLen_bind; [apply BLen_opt with (len := len_cmod); intros; eapply BLen_of, BRT_cmod; auto|].
    eapply BLen_bind; [apply BLen_opt with (len := fun _ => 4); intros; apply BLen_put; lia|].
    eapply BLen_bind; [apply BLen_opt with (len := fun _ => 16); intros; apply BLen_put; lia|].
    eapply BLen_bind with (L1 := octets8_bits (CTransmitter_modparams x)).
    { eapply BLen_of, BRT_octets8 with (fp := Z.b2z (nonempty (CTransmitter_modparams x))) (mask := 1); [assumption|assumption|destruct (CTransmitter_modparams x); reflexivity]. }
    eapply BLen_bind; [apply BLen_opt with (len := len_cbap); intros; eapply BLen_of, BRT_cbap; auto|].
    eapply BLen_bind; [apply BLen_list with (len := len_cvtp); intros; eapply BLen_of, BRT_cvtp; auto|].
    apply BLen_ret. }
  change len_cbap with (fun _ : CBeamAntennaPattern => 112).
  unfold len_ctf, len_ctb, len_cmod. cbv beta delta [opt_len]. lia.
Qed.
Lemma fits_wfits_cbody b : fits_cbody b -> wfits_cbody b.
Proof. destruct b; cbn [fits_cbody wfits_cbody]; try exact (fun H => H); [intros [H _]; exact H|intros [H _]; exact H|intros [H _]; exact H]. Qed.
(** the writer of a body whose fields fit stores [bits_cbody] bits *)
Lemma BLen_cbody m b : wfits_cbody b -> BLen (w_cbody m b) (bits_cbody b).
Proof.
  destruct b; cbn [wfits_cbody w_cbody bits_cbody]; intros H; try (apply BLen_ret); try (eapply BLen_of; eauto with brt; fail).
  - now apply BLen_cemission.
  - now apply BLen_ctransmitter.
  - now apply BLen_ciff.
Qed.
Lemma p_cbody_of t b : ctype_of b = Some t -> is_supported t = true.
Proof. destruct b; cbn [ctype_of]; intros E; inversion E; reflexivity. Qed.
Lemma p_cbody_unsupported t : is_supported t = false -> p_cbody t = pret CBUnsupported.
Proof.
  unfold is_supported. cbn [existsb]. rewrite !orb_false_iff. intros H. unfold p_cbody.
  repeat match goal with H : _ /\ _ |- _ => destruct H as [-> H] | |- context [t =? ?k] => replace (t =? k) with false by (symmetry; tauto) end. reflexivity.
Qed.
Lemma BRT_cbody m t b : body_matches t b -> fits_cbody b -> BRT (w_cbody m b) (p_cbody t) (img_cbody b) (bits_cbody b).
Proof.
  unfold body_matches. destruct b; cbn [ctype_of fits_cbody w_cbody img_cbody bits_cbody]; intros E H; try subst t.
  - rewrite p_cbody_unsupported by exact E. apply BRT_ret.

  - unfold p_cbody; cbn [Z.eqb Pos.eqb]. eapply BRT_map; [apply BRT_ces; exact H|reflexivity].
  - unfold p_cbody; cbn [Z.eqb Pos.eqb]. eapply BRT_map; [apply BRT_cfire; exact H|reflexivity].
  - unfold p_cbody; cbn [Z.eqb Pos.eqb]. eapply BRT_map; [apply BRT_cdetonation; exact H|reflexivity].
  - unfold p_cbody; cbn [Z.eqb Pos.eqb]. eapply BRT_map; [apply BRT_ccollision; exact H|reflexivity].
  - unfold p_cbody; cbn [Z.eqb Pos.eqb]. eapply BRT_map; [apply BRT_ccreate; exact H|reflexivity].
  - unfold p_cbody; cbn [Z.eqb Pos.eqb]. eapply BRT_map; [apply BRT_cremove; exact H|reflexivity].
  - unfold p_cbody; cbn [Z.eqb Pos.eqb]. eapply BRT_map; [apply BRT_cstart; exact H|reflexivity].
  - unfold p_cbody; cbn [Z.eqb Pos.eqb]. eapply BRT_map; [apply BRT_cstop; exact H|reflexivity].
  - unfold p_cbody; cbn [Z.eqb Pos.eqb]. eapply BRT_map; [apply BRT_cack; exact H|reflexivity].
  - unfold p_cbody; cbn [Z.eqb Pos.eqb]. eapply BRT_map; [apply BRT_cactreq; exact H|reflexivity].
  - unfold p_cbody; cbn [Z.eqb Pos.eqb]. eapply BRT_map; [apply BRT_cactres; exact H|reflexivity].
  - unfold p_cbody; cbn [Z.eqb Pos.eqb]. eapply BRT_map; [apply BRT_cquery; exact H|reflexivity].
  - unfold p_cbody; cbn [Z.eqb Pos.eqb]. eapply BRT_map; [apply BRT_csetdata; exact H|reflexivity].
  - unfold p_cbody; cbn [Z.eqb Pos.eqb]. eapply BRT_map; [apply BRT_cdata; exact H|reflexivity].
  - unfold p_cbody; cbn [Z.eqb Pos.eqb]. eapply BRT_map; [apply BRT_cevent; exact H|reflexivity].
  - unfold p_cbody; cbn [Z.eqb Pos.eqb]. eapply BRT_map; [apply BRT_ccomment; exact H|reflexivity].
  - unfold p_cbody; cbn [Z.eqb Pos.eqb]. eapply BRT_map; [apply BRT_cemission; exact H|reflexivity].
  - unfold p_cbody; cbn [Z.eqb Pos.eqb]. eapply BRT_map; [apply BRT_cdesignator; exact H|reflexivity].
  - unfold p_cbody; cbn [Z.eqb Pos.eqb]. eapply BRT_map; [destruct H; apply BRT_ctransmitter; assumption|reflexivity].
  - unfold p_cbody; cbn [Z.eqb Pos.eqb]. eapply BRT_map; [apply BRT_csignal; exact H|reflexivity].
  - unfold p_cbody; cbn [Z.eqb Pos.eqb]. eapply BRT_map; [apply BRT_creceiver; exact H|reflexivity].
  - unfold p_cbody; cbn [Z.eqb Pos.eqb]. eapply BRT_map; [apply BRT_ciff; exact H|reflexivity].
Qed.
Lemma BRT_cpdu m p : fits_CPdu p -> BRT (w_cpdu m p) p_cpdu (img_cpdu p) (bits_cpdu p).
Proof.
  destruct p as [h b]. unfold fits_CPdu, w_cpdu, p_cpdu, img_cpdu, bits_cpdu. cbn [cp_header cp_body]. intros (H1 & H2 & H3).
  eapply BRT_conv; [eapply BRT_bind; [apply BRT_cheader; exact H1|cbv beta]; eapply BRT_bind; [apply BRT_cbody; eassumption|cbv beta]; apply BRT_ret|reflexivity|lia].
Qed.
Lemma BLen_cpdu m p : wfits_CPdu p -> BLen (w_cpdu m p) (bits_cpdu p).
Proof.
  intros (H1 & H2). unfold w_cpdu, bits_cpdu.
  eapply BLen_conv; [eapply BLen_bind; [eapply BLen_of, BRT_cheader; exact H1|]; eapply BLen_bind; [apply BLen_cbody; exact H2|apply BLen_ret]|lia].
Qed.
Lemma BExt_cbody t : BExt (p_cbody t).
Proof.
  unfold p_cbody. repeat match goal with |- BExt (if ?c then _ else _) => destruct c; [apply BExt_bind; [auto with bext|intros; apply BExt_ret]|] end. apply BExt_ret.
Qed.
Lemma BSafe_cbody t : BSafe (p_cbody t) (fun _ => True).
Proof.
  unfold p_cbody. repeat match goal with |- BSafe (if ?c then _ else _) _ => destruct c; [eapply BSafe_bind with (P := fun _ => True); [auto with bsafe|intros; apply BSafe_ret; exact I]|] end. now apply BSafe_ret.
Qed.
Global Hint Resolve BExt_cbody : bext.
Global Hint Resolve BSafe_cbody : bsafe.
Lemma BExt_cpdu : BExt p_cpdu.
Proof. unfold p_cpdu. bext. Qed.
Lemma BSafe_cpdu : BSafe p_cpdu (fun _ => True).
Proof. unfold p_cpdu. eapply BSafe_bind; [apply BSafe_cheader|intros]. eapply BSafe_bind; [apply BSafe_cbody|intros]. now apply BSafe_ret. Qed.

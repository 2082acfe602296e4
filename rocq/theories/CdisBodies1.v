(** * C-DIS PDU bodies: simulation management, warfare, radio signal and receiver

    Models cdis-assemble/src/<pdu>/{model,parser,writer}.rs. For each body: the record, [fits_*] (every field fits its field on the
    wire), the fields-present word [fields_*], the writer [w_*], the parser [p_*], the declared length [len_*] (body_length_bits), the
    number of bits actually written [bits_*], and when the value read back differs from the value written, [img_*]. Enumerations are
    their numbers. *)
From Coq Require Import ZArith List Lia Bool.
From Verif Require Import Base CdisBase DisCommon DisLists DisSimman CdisRecords.
Import ListNotations. Open Scope Z_scope.

(** ** Shared pieces *)
Lemma BRT_bool b : BRT (bput 8 1 (Z.b2z b)) bbool b 1.
Proof.
  unfold bbool. eapply BRT_conv; [eapply BRT_end; [apply (BRT_put 8 1 (Z.b2z b)); [lia|destruct b; unfold ub; cbn; lia]|reflexivity]|destruct b; reflexivity|reflexivity].
Qed.
Global Hint Resolve BRT_bool : brt.
(** two one-bit units written separately and read as one number (CollisionUnits, DetonationUnits, DesignatorUnits, TransmitterUnits: From<u8>) *)
Definition w_units2 (u : Z * Z) : BW := (bput 8 1 (fst u);; bput 8 1 (snd u);; wret tt)%write.
Definition p_units2 : bitparser (Z * Z) := (u <- btake 2;; pret (Z.shiftr (Z.land u 2) 1, Z.land u 1))%parse.
Lemma BRT_units2 u : ub 1 (fst u) -> ub 1 (snd u) -> BRT (w_units2 u) p_units2 u 2.
Proof.
  destruct u as [a b]. cbn [fst snd]. intros Ha Hb. unfold p_units2. eapply BRT_end; [exact (BRT_two_bits a b Ha Hb)|].
  unfold ub in Ha, Hb. change (2 ^ 1) with 2 in *. assert (a = 0 \/ a = 1) as [-> | ->] by lia; assert (b = 0 \/ b = 1) as [-> | ->] by lia; reflexivity.
Qed.
Lemma BExt_units2 : BExt p_units2.
Proof. unfold p_units2. bext. Qed.
Lemma BSafe_units2 : BSafe p_units2 (fun _ => True).
Proof. unfold p_units2. bsafe. exact I. Qed.
Global Hint Extern 2 (BRT (w_units2 _) _ _ _) => apply BRT_units2; tauto : brt.
Global Hint Extern 2 (BRT (w_clock _ _ _) _ _ _) => apply BRT_clock2; tauto : brt.
Global Hint Resolve BExt_units2 : bext.
Global Hint Resolve BSafe_units2 : bsafe.
Global Hint Extern 2 (BRT (bput _ _ (Z.lor _ _)) (btake _) _ _) => apply BRT_put; [lia|ub_word] : brt.
Global Hint Extern 2 (BRT (bput _ _ (two_fields _ _)) (btake _) _ _) => apply BRT_put; [lia|apply ub_two] : brt.
Global Hint Extern 2 (BRT (bput _ _ (datum_fields _)) (btake _) _ _) => apply BRT_put; [lia|apply ub_two] : brt.
Global Hint Extern 2 (BRT (w_cnt _) (p_when _ _ p_uvint8) _ _) => apply BRT_cnt; [lia|fp_tac] : brt.
Global Hint Extern 3 (BRT (bw_list _ _) (count _ _) _ _) => apply BRT_list; [apply odflt_cnt|intros; match goal with H : Forall _ ?l, I : In _ ?l |- _ => rewrite Forall_forall in H; pose proof (H _ I) end; solve [eauto 6 with brt]] : brt.
(** a list whose length is an 8-bit number, written only when the list is not empty *)
Definition w_cnt8 {A} (l : list A) : BW := if nonempty l then bput 8 8 (zlen l mod 256) else wret tt.
Definition cnt8_bits {A} (l : list A) : Z := if nonempty l then 8 else 0.
Lemma BRT_cnt8 {A} (l : list A) fp mask : zlen l < 256 -> field_present fp mask = nonempty l ->
  BRT (w_cnt8 l) (p_when fp mask (btake 8)) (if nonempty l then Some (zlen l) else None) (cnt8_bits l).
Proof.
  intros Hl Hf. unfold w_cnt8, p_when, cnt8_bits. rewrite Hf. pose proof (zlen_nonneg l). rewrite Z.mod_small by lia. destruct (nonempty l).
  - eapply BRT_end; [apply BRT_put; [lia|unfold ub; change (2 ^ 8) with 256; lia]|reflexivity].
  - apply BRT_ret.
Qed.
Global Hint Extern 2 (BRT (w_cnt8 _) (p_when _ _ (btake 8)) _ _) => apply BRT_cnt8; [lia|fp_tac] : brt.

(** ** CreateEntity: cdis-assemble/src/create_entity: model.rs:1-25, parser.rs:8-18, writer.rs:7-14 *)
Record CCreateEntity := MkCCreateEntity { CCreateEntity_orig : CEntityId; CCreateEntity_recv : CEntityId; CCreateEntity_request : Z }.
Definition fits_CCreateEntity (x : CCreateEntity) : Prop :=
  fits_CEntityId (CCreateEntity_orig x) /\ fits_CEntityId (CCreateEntity_recv x) /\ ub 32 (CCreateEntity_request x).
Definition w_ccreate (m : mode) (x : CCreateEntity) : BW :=
  (w_ceid m (CCreateEntity_orig x);; w_ceid m (CCreateEntity_recv x);; w_uvint32 (CCreateEntity_request x);; wret tt)%write.
Definition p_ccreate : bitparser CCreateEntity :=
  (orig <- p_ceid;; recv <- p_ceid;; request <- p_uvint32;; pret (MkCCreateEntity orig recv request))%parse.
(** the declared body length: body_length_bits *)
Definition len_ccreate (x : CCreateEntity) : Z := len_ceid (CCreateEntity_orig x) + len_ceid (CCreateEntity_recv x) + len_uvint32 (CCreateEntity_request x).
(** the bits the writer emits *)
Definition bits_ccreate (x : CCreateEntity) : Z := len_ceid (CCreateEntity_orig x) + len_ceid (CCreateEntity_recv x) + len_uvint32 (CCreateEntity_request x).
Lemma BRT_ccreate m x : fits_CCreateEntity x -> BRT (w_ccreate m x) p_ccreate x (bits_ccreate x).
Proof.
  destruct x. unfold fits_CCreateEntity, w_ccreate, p_ccreate, bits_ccreate. cbn [CCreateEntity_orig CCreateEntity_recv CCreateEntity_request]. intros (H0 & H1 & H2).
  brt.
Qed.
Global Hint Resolve BRT_ccreate : brt.
Lemma BExt_ccreate : BExt p_ccreate.
Proof. unfold p_ccreate. bext. Qed.
Lemma BSafe_ccreate : BSafe p_ccreate (fun _ => True).
Proof. unfold p_ccreate. bsafe; exact I. Qed.
Global Hint Resolve BExt_ccreate : bext.
Global Hint Resolve BSafe_ccreate : bsafe.

(** ** RemoveEntity: cdis-assemble/src/remove_entity: model.rs:1-25, parser.rs:8-18, writer.rs:7-14 *)
Record CRemoveEntity := MkCRemoveEntity { CRemoveEntity_orig : CEntityId; CRemoveEntity_recv : CEntityId; CRemoveEntity_request : Z }.
Definition fits_CRemoveEntity (x : CRemoveEntity) : Prop :=
  fits_CEntityId (CRemoveEntity_orig x) /\ fits_CEntityId (CRemoveEntity_recv x) /\ ub 32 (CRemoveEntity_request x).
Definition w_cremove (m : mode) (x : CRemoveEntity) : BW :=
  (w_ceid m (CRemoveEntity_orig x);; w_ceid m (CRemoveEntity_recv x);; w_uvint32 (CRemoveEntity_request x);; wret tt)%write.
Definition p_cremove : bitparser CRemoveEntity :=
  (orig <- p_ceid;; recv <- p_ceid;; request <- p_uvint32;; pret (MkCRemoveEntity orig recv request))%parse.
(** the declared body length: body_length_bits *)
Definition len_cremove (x : CRemoveEntity) : Z := len_ceid (CRemoveEntity_orig x) + len_ceid (CRemoveEntity_recv x) + len_uvint32 (CRemoveEntity_request x).
(** the bits the writer emits *)
Definition bits_cremove (x : CRemoveEntity) : Z := len_ceid (CRemoveEntity_orig x) + len_ceid (CRemoveEntity_recv x) + len_uvint32 (CRemoveEntity_request x).
Lemma BRT_cremove m x : fits_CRemoveEntity x -> BRT (w_cremove m x) p_cremove x (bits_cremove x).
Proof.
  destruct x. unfold fits_CRemoveEntity, w_cremove, p_cremove, bits_cremove. cbn [CRemoveEntity_orig CRemoveEntity_recv CRemoveEntity_request]. intros (H0 & H1 & H2).
  brt.
Qed.
Global Hint Resolve BRT_cremove : brt.
Lemma BExt_cremove : BExt p_cremove.
Proof. unfold p_cremove. bext. Qed.
Lemma BSafe_cremove : BSafe p_cremove (fun _ => True).
Proof. unfold p_cremove. bsafe; exact I. Qed.
Global Hint Resolve BExt_cremove : bext.
Global Hint Resolve BSafe_cremove : bsafe.

(** ** StartResume: cdis-assemble/src/start_resume: model.rs:1-31, parser.rs:8-24, writer.rs:8-17 *)
Record CStartResume := MkCStartResume { CStartResume_orig : CEntityId; CStartResume_recv : CEntityId; CStartResume_real_time : (Z * Z); CStartResume_sim_time : (Z * Z); CStartResume_request : Z }.
Definition fits_CStartResume (x : CStartResume) : Prop :=
  fits_CEntityId (CStartResume_orig x) /\ fits_CEntityId (CStartResume_recv x) /\ (sb 32 (fst (CStartResume_real_time x)) /\ ub 32 (snd (CStartResume_real_time x))) /\ (sb 32 (fst (CStartResume_sim_time x)) /\ ub 32 (snd (CStartResume_sim_time x))) /\ ub 32 (CStartResume_request x).
Definition w_cstart (m : mode) (x : CStartResume) : BW :=
  (w_ceid m (CStartResume_orig x);; w_ceid m (CStartResume_recv x);; w_clock m (fst (CStartResume_real_time x)) (snd (CStartResume_real_time x));; w_clock m (fst (CStartResume_sim_time x)) (snd (CStartResume_sim_time x));; w_uvint32 (CStartResume_request x);; wret tt)%write.
Definition p_cstart : bitparser CStartResume :=
  (orig <- p_ceid;; recv <- p_ceid;; real_time <- p_clock;; sim_time <- p_clock;; request <- p_uvint32;; pret (MkCStartResume orig recv real_time sim_time request))%parse.
(** the declared body length: body_length_bits *)
Definition len_cstart (x : CStartResume) : Z := 128 + len_ceid (CStartResume_orig x) + len_ceid (CStartResume_recv x) + len_uvint32 (CStartResume_request x).
(** the bits the writer emits *)
Definition bits_cstart (x : CStartResume) : Z := 128 + len_ceid (CStartResume_orig x) + len_ceid (CStartResume_recv x) + len_uvint32 (CStartResume_request x).
Lemma BRT_cstart m x : fits_CStartResume x -> BRT (w_cstart m x) p_cstart x (bits_cstart x).
Proof.
  destruct x. unfold fits_CStartResume, w_cstart, p_cstart, bits_cstart. cbn [CStartResume_orig CStartResume_recv CStartResume_real_time CStartResume_sim_time CStartResume_request]. intros (H0 & H1 & H2 & H3 & H4).
  brt.
Qed.
Global Hint Resolve BRT_cstart : brt.
Lemma BExt_cstart : BExt p_cstart.
Proof. unfold p_cstart. bext. Qed.
Lemma BSafe_cstart : BSafe p_cstart (fun _ => True).
Proof. unfold p_cstart. bsafe; exact I. Qed.
Global Hint Resolve BExt_cstart : bext.
Global Hint Resolve BSafe_cstart : bsafe.

(** ** StopFreeze: cdis-assemble/src/stop_freeze: model.rs:1-39, parser.rs:11-46, writer.rs:10-34 *)
Record CStopFreeze := MkCStopFreeze { CStopFreeze_orig : CEntityId; CStopFreeze_recv : CEntityId; CStopFreeze_real_time : (Z * Z); CStopFreeze_reason : Z; CStopFreeze_run_clock : bool; CStopFreeze_transmit : bool; CStopFreeze_process : bool; CStopFreeze_request : Z }.
Definition fits_CStopFreeze (x : CStopFreeze) : Prop :=
  fits_CEntityId (CStopFreeze_orig x) /\ fits_CEntityId (CStopFreeze_recv x) /\ (sb 32 (fst (CStopFreeze_real_time x)) /\ ub 32 (snd (CStopFreeze_real_time x))) /\ ub 4 (CStopFreeze_reason x) /\ ub 32 (CStopFreeze_request x).
Definition w_cstop (m : mode) (x : CStopFreeze) : BW :=
  (w_ceid m (CStopFreeze_orig x);; w_ceid m (CStopFreeze_recv x);; w_clock m (fst (CStopFreeze_real_time x)) (snd (CStopFreeze_real_time x));; bput 8 4 (CStopFreeze_reason x);; bput 8 1 (Z.b2z (CStopFreeze_run_clock x));; bput 8 1 (Z.b2z (CStopFreeze_transmit x));; bput 8 1 (Z.b2z (CStopFreeze_process x));; w_uvint32 (CStopFreeze_request x);; wret tt)%write.
Definition p_cstop : bitparser CStopFreeze :=
  (orig <- p_ceid;; recv <- p_ceid;; real_time <- p_clock;; reason <- btake 4;; run_clock <- bbool;; transmit <- bbool;; process <- bbool;; request <- p_uvint32;; pret (MkCStopFreeze orig recv real_time reason run_clock transmit process request))%parse.
(** the declared body length: body_length_bits *)
Definition len_cstop (x : CStopFreeze) : Z := 71 + len_ceid (CStopFreeze_orig x) + len_ceid (CStopFreeze_recv x) + len_uvint32 (CStopFreeze_request x).
(** the bits the writer emits *)
Definition bits_cstop (x : CStopFreeze) : Z := 71 + len_ceid (CStopFreeze_orig x) + len_ceid (CStopFreeze_recv x) + len_uvint32 (CStopFreeze_request x).
Lemma BRT_cstop m x : fits_CStopFreeze x -> BRT (w_cstop m x) p_cstop x (bits_cstop x).
Proof.
  destruct x. unfold fits_CStopFreeze, w_cstop, p_cstop, bits_cstop. cbn [CStopFreeze_orig CStopFreeze_recv CStopFreeze_real_time CStopFreeze_reason CStopFreeze_run_clock CStopFreeze_transmit CStopFreeze_process CStopFreeze_request]. intros (H0 & H1 & H2 & H3 & H4).
  brt.
Qed.
Global Hint Resolve BRT_cstop : brt.
Lemma BExt_cstop : BExt p_cstop.
Proof. unfold p_cstop. bext. Qed.
Lemma BSafe_cstop : BSafe p_cstop (fun _ => True).
Proof. unfold p_cstop. bsafe; exact I. Qed.
Global Hint Resolve BExt_cstop : bext.
Global Hint Resolve BSafe_cstop : bsafe.

(** ** Acknowledge: cdis-assemble/src/acknowledge: model.rs:1-35, parser.rs:11-29, writer.rs:8-19 *)
Record CAcknowledge := MkCAcknowledge { CAcknowledge_orig : CEntityId; CAcknowledge_recv : CEntityId; CAcknowledge_ack : Z; CAcknowledge_response : Z; CAcknowledge_request : Z }.
Definition fits_CAcknowledge (x : CAcknowledge) : Prop :=
  fits_CEntityId (CAcknowledge_orig x) /\ fits_CEntityId (CAcknowledge_recv x) /\ ub 3 (CAcknowledge_ack x) /\ ub 2 (CAcknowledge_response x) /\ ub 32 (CAcknowledge_request x).
Definition w_cack (m : mode) (x : CAcknowledge) : BW :=
  (w_ceid m (CAcknowledge_orig x);; w_ceid m (CAcknowledge_recv x);; bput 16 3 (CAcknowledge_ack x);; bput 16 2 (CAcknowledge_response x);; w_uvint32 (CAcknowledge_request x);; wret tt)%write.
Definition p_cack : bitparser CAcknowledge :=
  (orig <- p_ceid;; recv <- p_ceid;; ack <- btake 3;; response <- btake 2;; request <- p_uvint32;; pret (MkCAcknowledge orig recv ack response request))%parse.
(** the declared body length: body_length_bits *)
Definition len_cack (x : CAcknowledge) : Z := 5 + len_ceid (CAcknowledge_orig x) + len_ceid (CAcknowledge_recv x) + len_uvint32 (CAcknowledge_request x).
(** the bits the writer emits *)
Definition bits_cack (x : CAcknowledge) : Z := 5 + len_ceid (CAcknowledge_orig x) + len_ceid (CAcknowledge_recv x) + len_uvint32 (CAcknowledge_request x).
Lemma BRT_cack m x : fits_CAcknowledge x -> BRT (w_cack m x) p_cack x (bits_cack x).
Proof.
  destruct x. unfold fits_CAcknowledge, w_cack, p_cack, bits_cack. cbn [CAcknowledge_orig CAcknowledge_recv CAcknowledge_ack CAcknowledge_response CAcknowledge_request]. intros (H0 & H1 & H2 & H3 & H4).
  brt.
Qed.
Global Hint Resolve BRT_cack : brt.
Lemma BExt_cack : BExt p_cack.
Proof. unfold p_cack. bext. Qed.
Lemma BSafe_cack : BSafe p_cack (fun _ => True).
Proof. unfold p_cack. bsafe; exact I. Qed.
Global Hint Resolve BExt_cack : bext.
Global Hint Resolve BSafe_cack : bsafe.

(** ** action_request: cdis-assemble/src/action_request: model.rs:1-54, parser.rs:12-45, writer.rs:9-31 *)
Record CActionRequest := MkCActionRequest { CActionRequest_orig : CEntityId; CActionRequest_recv : CEntityId; CActionRequest_request : Z; CActionRequest_action : Z; CActionRequest_datums : DatumSpecification }.
Definition fits_CActionRequest (x : CActionRequest) : Prop :=
  fits_CEntityId (CActionRequest_orig x) /\ fits_CEntityId (CActionRequest_recv x) /\ ub 32 (CActionRequest_request x) /\ ub 32 (CActionRequest_action x) /\ fits_cDatumSpec (CActionRequest_datums x).
Definition fields_cactreq (x : CActionRequest) : Z := datum_fields (CActionRequest_datums x).
Definition w_cactreq (m : mode) (x : CActionRequest) : BW :=
  (bput 8 2 (fields_cactreq x);; w_ceid m (CActionRequest_orig x);; w_ceid m (CActionRequest_recv x);; w_uvint32 (CActionRequest_request x);; w_uvint32 (CActionRequest_action x);; w_cdatums m (CActionRequest_datums x);; wret tt)%write.
Definition p_cactreq : bitparser CActionRequest :=
  (fp <- btake 2;; orig <- p_ceid;; recv <- p_ceid;; request <- p_uvint32;; action <- p_uvint32;; datums <- p_cdatums fp;; pret (MkCActionRequest orig recv request action datums))%parse.
(** the declared body length: body_length_bits *)
Definition len_cactreq (x : CActionRequest) : Z := 2 + len_ceid (CActionRequest_orig x) + len_ceid (CActionRequest_recv x) + len_uvint32 (CActionRequest_request x) + len_uvint32 (CActionRequest_action x) + len_cdatum_spec (CActionRequest_datums x).
(** the bits the writer emits *)
Definition bits_cactreq (x : CActionRequest) : Z := 2 + len_ceid (CActionRequest_orig x) + len_ceid (CActionRequest_recv x) + len_uvint32 (CActionRequest_request x) + len_uvint32 (CActionRequest_action x) + bits_cdatums (CActionRequest_datums x).
Lemma BExt_cactreq : BExt p_cactreq.
Proof. unfold p_cactreq. bext. Qed.
Lemma BSafe_cactreq : BSafe p_cactreq (fun _ => True).
Proof. unfold p_cactreq. bsafe; exact I. Qed.
Global Hint Resolve BExt_cactreq : bext.
Global Hint Resolve BSafe_cactreq : bsafe.
Lemma BRT_cactreq m x : fits_CActionRequest x -> BRT (w_cactreq m x) p_cactreq x (bits_cactreq x).
Proof.
  destruct x. unfold fits_CActionRequest, w_cactreq, p_cactreq, bits_cactreq, fields_cactreq. cbn [CActionRequest_orig CActionRequest_recv CActionRequest_request CActionRequest_action CActionRequest_datums]. intros (H0 & H1 & H2 & H3 & H4).
  brt.
Qed.
Global Hint Resolve BRT_cactreq : brt.

(** ** action_response: cdis-assemble/src/action_response: model.rs:1-54, parser.rs:12-45, writer.rs:9-31 *)
Record CActionResponse := MkCActionResponse { CActionResponse_orig : CEntityId; CActionResponse_recv : CEntityId; CActionResponse_request : Z; CActionResponse_status : Z; CActionResponse_datums : DatumSpecification }.
Definition fits_CActionResponse (x : CActionResponse) : Prop :=
  fits_CEntityId (CActionResponse_orig x) /\ fits_CEntityId (CActionResponse_recv x) /\ ub 32 (CActionResponse_request x) /\ ub 32 (CActionResponse_status x) /\ fits_cDatumSpec (CActionResponse_datums x).
Definition fields_cactres (x : CActionResponse) : Z := datum_fields (CActionResponse_datums x).
Definition w_cactres (m : mode) (x : CActionResponse) : BW :=
  (bput 8 2 (fields_cactres x);; w_ceid m (CActionResponse_orig x);; w_ceid m (CActionResponse_recv x);; w_uvint32 (CActionResponse_request x);; w_uvint32 (CActionResponse_status x);; w_cdatums m (CActionResponse_datums x);; wret tt)%write.
Definition p_cactres : bitparser CActionResponse :=
  (fp <- btake 2;; orig <- p_ceid;; recv <- p_ceid;; request <- p_uvint32;; status <- p_uvint32;; datums <- p_cdatums fp;; pret (MkCActionResponse orig recv request status datums))%parse.
(** the declared body length: body_length_bits *)
Definition len_cactres (x : CActionResponse) : Z := 2 + len_ceid (CActionResponse_orig x) + len_ceid (CActionResponse_recv x) + len_uvint32 (CActionResponse_request x) + len_uvint32 (CActionResponse_status x) + len_cdatum_spec (CActionResponse_datums x).
(** the bits the writer emits *)
Definition bits_cactres (x : CActionResponse) : Z := 2 + len_ceid (CActionResponse_orig x) + len_ceid (CActionResponse_recv x) + len_uvint32 (CActionResponse_request x) + len_uvint32 (CActionResponse_status x) + bits_cdatums (CActionResponse_datums x).
Lemma BExt_cactres : BExt p_cactres.
Proof. unfold p_cactres. bext. Qed.
Lemma BSafe_cactres : BSafe p_cactres (fun _ => True).
Proof. unfold p_cactres. bsafe; exact I. Qed.
Global Hint Resolve BExt_cactres : bext.
Global Hint Resolve BSafe_cactres : bsafe.
Lemma BRT_cactres m x : fits_CActionResponse x -> BRT (w_cactres m x) p_cactres x (bits_cactres x).
Proof.
  destruct x. unfold fits_CActionResponse, w_cactres, p_cactres, bits_cactres, fields_cactres. cbn [CActionResponse_orig CActionResponse_recv CActionResponse_request CActionResponse_status CActionResponse_datums]. intros (H0 & H1 & H2 & H3 & H4).
  brt.
Qed.
Global Hint Resolve BRT_cactres : brt.

(** ** set_data: cdis-assemble/src/set_data: model.rs:1-52, parser.rs:12-43, writer.rs:9-30 *)
Record CSetData := MkCSetData { CSetData_orig : CEntityId; CSetData_recv : CEntityId; CSetData_request : Z; CSetData_datums : DatumSpecification }.
Definition fits_CSetData (x : CSetData) : Prop :=
  fits_CEntityId (CSetData_orig x) /\ fits_CEntityId (CSetData_recv x) /\ ub 32 (CSetData_request x) /\ fits_cDatumSpec (CSetData_datums x).
Definition fields_csetdata (x : CSetData) : Z := datum_fields (CSetData_datums x).
Definition w_csetdata (m : mode) (x : CSetData) : BW :=
  (bput 8 2 (fields_csetdata x);; w_ceid m (CSetData_orig x);; w_ceid m (CSetData_recv x);; w_uvint32 (CSetData_request x);; w_cdatums m (CSetData_datums x);; wret tt)%write.
Definition p_csetdata : bitparser CSetData :=
  (fp <- btake 2;; orig <- p_ceid;; recv <- p_ceid;; request <- p_uvint32;; datums <- p_cdatums fp;; pret (MkCSetData orig recv request datums))%parse.
(** the declared body length: body_length_bits *)
Definition len_csetdata (x : CSetData) : Z := 2 + len_ceid (CSetData_orig x) + len_ceid (CSetData_recv x) + len_uvint32 (CSetData_request x) + len_cdatum_spec (CSetData_datums x).
(** the bits the writer emits *)
Definition bits_csetdata (x : CSetData) : Z := 2 + len_ceid (CSetData_orig x) + len_ceid (CSetData_recv x) + len_uvint32 (CSetData_request x) + bits_cdatums (CSetData_datums x).
Lemma BExt_csetdata : BExt p_csetdata.
Proof. unfold p_csetdata. bext. Qed.
Lemma BSafe_csetdata : BSafe p_csetdata (fun _ => True).
Proof. unfold p_csetdata. bsafe; exact I. Qed.
Global Hint Resolve BExt_csetdata : bext.
Global Hint Resolve BSafe_csetdata : bsafe.
Lemma BRT_csetdata m x : fits_CSetData x -> BRT (w_csetdata m x) p_csetdata x (bits_csetdata x).
Proof.
  destruct x. unfold fits_CSetData, w_csetdata, p_csetdata, bits_csetdata, fields_csetdata. cbn [CSetData_orig CSetData_recv CSetData_request CSetData_datums]. intros (H0 & H1 & H2 & H3).
  brt.
Qed.
Global Hint Resolve BRT_csetdata : brt.

(** ** data: cdis-assemble/src/data: model.rs:1-52, parser.rs:12-43, writer.rs:9-30 *)
Record CData := MkCData { CData_orig : CEntityId; CData_recv : CEntityId; CData_request : Z; CData_datums : DatumSpecification }.
Definition fits_CData (x : CData) : Prop :=
  fits_CEntityId (CData_orig x) /\ fits_CEntityId (CData_recv x) /\ ub 32 (CData_request x) /\ fits_cDatumSpec (CData_datums x).
Definition fields_cdata (x : CData) : Z := datum_fields (CData_datums x).
Definition w_cdata (m : mode) (x : CData) : BW :=
  (bput 8 2 (fields_cdata x);; w_ceid m (CData_orig x);; w_ceid m (CData_recv x);; w_uvint32 (CData_request x);; w_cdatums m (CData_datums x);; wret tt)%write.
Definition p_cdata : bitparser CData :=
  (fp <- btake 2;; orig <- p_ceid;; recv <- p_ceid;; request <- p_uvint32;; datums <- p_cdatums fp;; pret (MkCData orig recv request datums))%parse.
(** the declared body length: body_length_bits *)
Definition len_cdata (x : CData) : Z := 2 + len_ceid (CData_orig x) + len_ceid (CData_recv x) + len_uvint32 (CData_request x) + len_cdatum_spec (CData_datums x).
(** the bits the writer emits *)
Definition bits_cdata (x : CData) : Z := 2 + len_ceid (CData_orig x) + len_ceid (CData_recv x) + len_uvint32 (CData_request x) + bits_cdatums (CData_datums x).
Lemma BExt_cdata : BExt p_cdata.
Proof. unfold p_cdata. bext. Qed.
Lemma BSafe_cdata : BSafe p_cdata (fun _ => True).
Proof. unfold p_cdata. bsafe; exact I. Qed.
Global Hint Resolve BExt_cdata : bext.
Global Hint Resolve BSafe_cdata : bsafe.
Lemma BRT_cdata m x : fits_CData x -> BRT (w_cdata m x) p_cdata x (bits_cdata x).
Proof.
  destruct x. unfold fits_CData, w_cdata, p_cdata, bits_cdata, fields_cdata. cbn [CData_orig CData_recv CData_request CData_datums]. intros (H0 & H1 & H2 & H3).
  brt.
Qed.
Global Hint Resolve BRT_cdata : brt.

(** ** event_report: cdis-assemble/src/event_report: model.rs:1-52, parser.rs:12-43, writer.rs:9-30 *)
Record CEventReport := MkCEventReport { CEventReport_orig : CEntityId; CEventReport_recv : CEntityId; CEventReport_event : Z; CEventReport_datums : DatumSpecification }.
Definition fits_CEventReport (x : CEventReport) : Prop :=
  fits_CEntityId (CEventReport_orig x) /\ fits_CEntityId (CEventReport_recv x) /\ ub 32 (CEventReport_event x) /\ fits_cDatumSpec (CEventReport_datums x).
Definition fields_cevent (x : CEventReport) : Z := datum_fields (CEventReport_datums x).
Definition w_cevent (m : mode) (x : CEventReport) : BW :=
  (bput 8 2 (fields_cevent x);; w_ceid m (CEventReport_orig x);; w_ceid m (CEventReport_recv x);; w_uvint32 (CEventReport_event x);; w_cdatums m (CEventReport_datums x);; wret tt)%write.
Definition p_cevent : bitparser CEventReport :=
  (fp <- btake 2;; orig <- p_ceid;; recv <- p_ceid;; event <- p_uvint32;; datums <- p_cdatums fp;; pret (MkCEventReport orig recv event datums))%parse.
(** the declared body length: body_length_bits *)
Definition len_cevent (x : CEventReport) : Z := 2 + len_ceid (CEventReport_orig x) + len_ceid (CEventReport_recv x) + len_uvint32 (CEventReport_event x) + len_cdatum_spec (CEventReport_datums x).
(** the bits the writer emits *)
Definition bits_cevent (x : CEventReport) : Z := 2 + len_ceid (CEventReport_orig x) + len_ceid (CEventReport_recv x) + len_uvint32 (CEventReport_event x) + bits_cdatums (CEventReport_datums x).
Lemma BExt_cevent : BExt p_cevent.
Proof. unfold p_cevent. bext. Qed.
Lemma BSafe_cevent : BSafe p_cevent (fun _ => True).
Proof. unfold p_cevent. bsafe; exact I. Qed.
Global Hint Resolve BExt_cevent : bext.
Global Hint Resolve BSafe_cevent : bsafe.
Lemma BRT_cevent m x : fits_CEventReport x -> BRT (w_cevent m x) p_cevent x (bits_cevent x).
Proof.
  destruct x. unfold fits_CEventReport, w_cevent, p_cevent, bits_cevent, fields_cevent. cbn [CEventReport_orig CEventReport_recv CEventReport_event CEventReport_datums]. intros (H0 & H1 & H2 & H3).
  brt.
Qed.
Global Hint Resolve BRT_cevent : brt.

(** ** comment: cdis-assemble/src/comment: model.rs:1-49, parser.rs:12-41, writer.rs:9-29 *)
Record CComment := MkCComment { CComment_orig : CEntityId; CComment_recv : CEntityId; CComment_datums : DatumSpecification }.
Definition fits_CComment (x : CComment) : Prop :=
  fits_CEntityId (CComment_orig x) /\ fits_CEntityId (CComment_recv x) /\ fits_cDatumSpec (CComment_datums x).
Definition fields_ccomment (x : CComment) : Z := datum_fields (CComment_datums x).
Definition w_ccomment (m : mode) (x : CComment) : BW :=
  (bput 8 2 (fields_ccomment x);; w_ceid m (CComment_orig x);; w_ceid m (CComment_recv x);; w_cdatums m (CComment_datums x);; wret tt)%write.
Definition p_ccomment : bitparser CComment :=
  (fp <- btake 2;; orig <- p_ceid;; recv <- p_ceid;; datums <- p_cdatums fp;; pret (MkCComment orig recv datums))%parse.
(** the declared body length: body_length_bits *)
Definition len_ccomment (x : CComment) : Z := 2 + len_ceid (CComment_orig x) + len_ceid (CComment_recv x) + len_cdatum_spec (CComment_datums x).
(** the bits the writer emits *)
Definition bits_ccomment (x : CComment) : Z := 2 + len_ceid (CComment_orig x) + len_ceid (CComment_recv x) + bits_cdatums (CComment_datums x).
Lemma BExt_ccomment : BExt p_ccomment.
Proof. unfold p_ccomment. bext. Qed.
Lemma BSafe_ccomment : BSafe p_ccomment (fun _ => True).
Proof. unfold p_ccomment. bsafe; exact I. Qed.
Global Hint Resolve BExt_ccomment : bext.
Global Hint Resolve BSafe_ccomment : bsafe.
Lemma BRT_ccomment m x : fits_CComment x -> BRT (w_ccomment m x) p_ccomment x (bits_ccomment x).
Proof.
  destruct x. unfold fits_CComment, w_ccomment, p_ccomment, bits_ccomment, fields_ccomment. cbn [CComment_orig CComment_recv CComment_datums]. intros (H0 & H1 & H2).
  brt.
Qed.
Global Hint Resolve BRT_ccomment : brt.

(** ** DataQuery: cdis-assemble/src/data_query: model.rs:1-60, parser.rs:13-48, writer.rs:10-33. Simplification: a CdisTimeStamp is its raw value (units * 2 + absolute flag, records/model.rs:128-165); the nanoseconds it carries are derived from the units *)
Record CDataQuery := MkCDataQuery { CDataQuery_orig : CEntityId; CDataQuery_recv : CEntityId; CDataQuery_request : Z; CDataQuery_interval : Z; CDataQuery_fixed : list Z; CDataQuery_variable : list Z }.
Definition fits_CDataQuery (x : CDataQuery) : Prop :=
  fits_CEntityId (CDataQuery_orig x) /\ fits_CEntityId (CDataQuery_recv x) /\ ub 32 (CDataQuery_request x) /\ ub 26 (CDataQuery_interval x) /\ (Forall (ub 32) (CDataQuery_fixed x) /\ zlen (CDataQuery_fixed x) < 256) /\ (Forall (ub 32) (CDataQuery_variable x) /\ zlen (CDataQuery_variable x) < 256).
Definition fields_cquery (x : CDataQuery) : Z :=
  Z.lor (fbit (nonempty (CDataQuery_fixed x)) 2) (fbit (nonempty (CDataQuery_variable x)) 1).
Definition w_cquery (m : mode) (x : CDataQuery) : BW :=
  (bput 8 2 (fields_cquery x);; w_ceid m (CDataQuery_orig x);; w_ceid m (CDataQuery_recv x);; w_uvint32 (CDataQuery_request x);; bput 32 26 (CDataQuery_interval x);; w_two (fun i => bput 32 32 i) (fun i => bput 32 32 i) (CDataQuery_fixed x) (CDataQuery_variable x);; wret tt)%write.
Definition p_cquery : bitparser CDataQuery :=
  (fp <- btake 2;; orig <- p_ceid;; recv <- p_ceid;; request <- p_uvint32;; interval <- btake 26;; lists <- p_two (btake 32) (btake 32) fp;; pret (MkCDataQuery orig recv request interval (fst lists) (snd lists)))%parse.
(** the declared body length: body_length_bits *)
Definition len_cquery (x : CDataQuery) : Z := 28 + len_ceid (CDataQuery_orig x) + len_ceid (CDataQuery_recv x) + len_uvint32 (CDataQuery_request x) + len_uvint8 (count8 (zlen (CDataQuery_fixed x))) + len_uvint8 (count8 (zlen (CDataQuery_variable x))) + 32 * zlen (CDataQuery_fixed x) + 32 * zlen (CDataQuery_variable x).
(** the bits the writer emits *)
Definition bits_cquery (x : CDataQuery) : Z := 28 + len_ceid (CDataQuery_orig x) + len_ceid (CDataQuery_recv x) + len_uvint32 (CDataQuery_request x) + cnt_bits (CDataQuery_fixed x) + cnt_bits (CDataQuery_variable x) + 32 * zlen (CDataQuery_fixed x) + 32 * zlen (CDataQuery_variable x).
Lemma BRT_cquery m x : fits_CDataQuery x -> BRT (w_cquery m x) p_cquery x (bits_cquery x).
Proof.
  destruct x. unfold fits_CDataQuery, w_cquery, p_cquery, bits_cquery, fields_cquery. cbn [CDataQuery_orig CDataQuery_recv CDataQuery_request CDataQuery_interval CDataQuery_fixed CDataQuery_variable]. intros (H0 & H1 & H2 & H3 & H4 & H5).
  destruct H4 as [H4 H4'], H5 as [H5 H5']. rewrite Forall_forall in H4, H5. rewrite <- (zsum_k CDataQuery_fixed0 32), <- (zsum_k CDataQuery_variable0 32).
  change (Z.lor (fbit (nonempty CDataQuery_fixed0) 2) (fbit (nonempty CDataQuery_variable0) 1)) with (two_fields CDataQuery_fixed0 CDataQuery_variable0).
  eapply BRT_conv; [repeat brt_step|try reflexivity|].
  eapply BRT_bind; [apply (BRT_two _ _ _ _ (fun _ => 32) (fun _ => 32)); auto; intros; apply BRT_put; auto; lia|]. apply BRT_ret.
  all: try reflexivity; lia.
Qed.
Global Hint Resolve BRT_cquery : brt.
Lemma BExt_cquery : BExt p_cquery.
Proof. unfold p_cquery. bext. apply BExt_two; auto with bext. Qed.
Lemma BSafe_cquery : BSafe p_cquery (fun _ => True).
Proof. unfold p_cquery. repeat (eapply BSafe_bind; [first [bsafe_atom|eapply BSafe_two; bsafe_atom]|intros]); bsafe; exact I. Qed.
Global Hint Resolve BExt_cquery : bext.
Global Hint Resolve BSafe_cquery : bsafe.

(** ** Collision: cdis-assemble/src/collision: model.rs:1-71, parser.rs:11-37, writer.rs:9-31; a collision type other than 1 (Elastic) is written as 0 *)
Record CCollision := MkCCollision { CCollision_units : (Z * Z); CCollision_issuing : CEntityId; CCollision_colliding : CEntityId; CCollision_event : CEntityId; CCollision_ctype : Z; CCollision_velocity : CLinearVelocity; CCollision_mass : Z; CCollision_location : CEntityCoordinateVector }.
Definition fits_CCollision (x : CCollision) : Prop :=
  (ub 1 (fst (CCollision_units x)) /\ ub 1 (snd (CCollision_units x))) /\ fits_CEntityId (CCollision_issuing x) /\ fits_CEntityId (CCollision_colliding x) /\ fits_CEntityId (CCollision_event x) /\ ub 1 (CCollision_ctype x) /\ fits_CLinearVelocity (CCollision_velocity x) /\ ub 32 (CCollision_mass x) /\ fits_CEntityCoordinateVector (CCollision_location x).
Definition w_ccollision (m : mode) (x : CCollision) : BW :=
  (w_units2 (CCollision_units x);; w_ceid m (CCollision_issuing x);; w_ceid m (CCollision_colliding x);; w_ceid m (CCollision_event x);; bput 8 1 (if CCollision_ctype x =? 1 then 1 else 0);; w_clvel m (CCollision_velocity x);; w_uvint32 (CCollision_mass x);; w_cecv m (CCollision_location x);; wret tt)%write.
Definition p_ccollision : bitparser CCollision :=
  (units <- p_units2;; issuing <- p_ceid;; colliding <- p_ceid;; event <- p_ceid;; ctype <- btake 1;; velocity <- p_clvel;; mass <- p_uvint32;; location <- p_cecv;; pret (MkCCollision units issuing colliding event ctype velocity mass location))%parse.
(** the declared body length: body_length_bits *)
Definition len_ccollision (x : CCollision) : Z := 3 + len_ceid (CCollision_issuing x) + len_ceid (CCollision_colliding x) + len_ceid (CCollision_event x) + len_clvel (CCollision_velocity x) + len_uvint32 (CCollision_mass x) + len_cecv (CCollision_location x).
(** the bits the writer emits *)
Definition bits_ccollision (x : CCollision) : Z := 3 + len_ceid (CCollision_issuing x) + len_ceid (CCollision_colliding x) + len_ceid (CCollision_event x) + len_clvel (CCollision_velocity x) + len_uvint32 (CCollision_mass x) + len_cecv (CCollision_location x).
Lemma BRT_ccollision m x : fits_CCollision x -> BRT (w_ccollision m x) p_ccollision x (bits_ccollision x).
Proof.
  destruct x. unfold fits_CCollision, w_ccollision, p_ccollision, bits_ccollision. cbn [CCollision_units CCollision_issuing CCollision_colliding CCollision_event CCollision_ctype CCollision_velocity CCollision_mass CCollision_location]. intros (H0 & H1 & H2 & H3 & H4 & H5 & H6 & H7).
  assert (Hc : (if CCollision_ctype0 =? 1 then 1 else 0) = CCollision_ctype0) by (unfold ub in H4; change (2 ^ 1) with 2 in H4; destruct (Z.eqb_spec CCollision_ctype0 1); lia). rewrite Hc. brt.
Qed.
Global Hint Resolve BRT_ccollision : brt.
Lemma BExt_ccollision : BExt p_ccollision.
Proof. unfold p_ccollision. bext. Qed.
Lemma BSafe_ccollision : BSafe p_ccollision (fun _ => True).
Proof. unfold p_ccollision. bsafe; exact I. Qed.
Global Hint Resolve BExt_ccollision : bext.
Global Hint Resolve BSafe_ccollision : bsafe.

(** ** Fire: cdis-assemble/src/fire: model.rs:1-76, parser.rs:12-58, writer.rs:8-36 *)
Record CFire := MkCFire { CFire_units : Z; CFire_firing : CEntityId; CFire_target : CEntityId; CFire_munition : CEntityId; CFire_event : CEntityId; CFire_mission : option Z; CFire_location : CWorldCoordinates; CFire_etype : CEntityType; CFire_warhead : option Z; CFire_fuze : option Z; CFire_quantity : option Z; CFire_rate : option Z; CFire_velocity : CLinearVelocity; CFire_range : option Z }.
Definition fits_CFire (x : CFire) : Prop :=
  ub 1 (CFire_units x) /\ fits_CEntityId (CFire_firing x) /\ fits_CEntityId (CFire_target x) /\ fits_CEntityId (CFire_munition x) /\ fits_CEntityId (CFire_event x) /\ (forall a, (CFire_mission x) = Some a -> ub 32 a) /\ fits_CWorldCoordinates (CFire_location x) /\ fits_CEntityType (CFire_etype x) /\ (forall a, (CFire_warhead x) = Some a -> ub 16 a) /\ (forall a, (CFire_fuze x) = Some a -> ub 16 a) /\ (forall a, (CFire_quantity x) = Some a -> ub 8 a) /\ (forall a, (CFire_rate x) = Some a -> ub 8 a) /\ fits_CLinearVelocity (CFire_velocity x) /\ (forall a, (CFire_range x) = Some a -> ub 32 a) /\ is_some (CFire_warhead x) = is_some (CFire_fuze x) /\ is_some (CFire_quantity x) = is_some (CFire_rate x).
Definition fields_cfire (x : CFire) : Z :=
  Z.lor (fbit (is_some (CFire_mission x)) 8) (Z.lor (fbit (is_some (CFire_warhead x) && is_some (CFire_fuze x)) 4) (Z.lor (fbit (is_some (CFire_quantity x) && is_some (CFire_rate x)) 2) (fbit (is_some (CFire_range x)) 1))).
Definition w_cfire (m : mode) (x : CFire) : BW :=
  (bput 8 4 (fields_cfire x);; bput 8 1 (CFire_units x);; w_ceid m (CFire_firing x);; w_ceid m (CFire_target x);; w_ceid m (CFire_munition x);; w_ceid m (CFire_event x);; w_opt (fun a => w_uvint32 a) (CFire_mission x);; w_cwc m (CFire_location x);; w_cet m (CFire_etype x);; w_opt (fun a => bput 16 16 a) (CFire_warhead x);; w_opt (fun a => bput 16 16 a) (CFire_fuze x);; w_opt (fun a => bput 8 8 a) (CFire_quantity x);; w_opt (fun a => bput 8 8 a) (CFire_rate x);; w_clvel m (CFire_velocity x);; w_opt (fun a => w_uvint32 a) (CFire_range x);; wret tt)%write.
Definition p_cfire : bitparser CFire :=
  (fp <- btake 4;; units <- btake 1;; firing <- p_ceid;; target <- p_ceid;; munition <- p_ceid;; event <- p_ceid;; mission <- p_when fp 8 p_uvint32;; location <- p_cwc;; etype <- p_cet;; warhead <- p_when fp 4 (btake 16);; fuze <- p_when fp 4 (btake 16);; quantity <- p_when fp 2 (btake 8);; rate <- p_when fp 2 (btake 8);; velocity <- p_clvel;; range <- p_when fp 1 p_uvint32;; pret (MkCFire units firing target munition event mission location etype warhead fuze quantity rate velocity range))%parse.
(** the declared body length: body_length_bits *)
Definition len_cfire (x : CFire) : Z := 5 + len_ceid (CFire_firing x) + len_ceid (CFire_target x) + len_ceid (CFire_munition x) + len_ceid (CFire_event x) + opt_len (fun a => len_uvint32 a) (CFire_mission x) + len_cwc (CFire_location x) + len_cet (CFire_etype x) + opt_len (fun _ => 16) (CFire_warhead x) + opt_len (fun _ => 16) (CFire_fuze x) + opt_len (fun _ => 8) (CFire_quantity x) + opt_len (fun _ => 8) (CFire_rate x) + len_clvel (CFire_velocity x) + opt_len (fun a => len_uvint32 a) (CFire_range x).
(** the bits the writer emits *)
Definition bits_cfire (x : CFire) : Z := 5 + len_ceid (CFire_firing x) + len_ceid (CFire_target x) + len_ceid (CFire_munition x) + len_ceid (CFire_event x) + opt_len (fun a => len_uvint32 a) (CFire_mission x) + len_cwc (CFire_location x) + len_cet (CFire_etype x) + opt_len (fun _ => 16) (CFire_warhead x) + opt_len (fun _ => 16) (CFire_fuze x) + opt_len (fun _ => 8) (CFire_quantity x) + opt_len (fun _ => 8) (CFire_rate x) + len_clvel (CFire_velocity x) + opt_len (fun a => len_uvint32 a) (CFire_range x).
(** what comes back from the wire *)
Definition img_cfire (x : CFire) : CFire :=
  MkCFire (CFire_units x) (CFire_firing x) (CFire_target x) (CFire_munition x) (CFire_event x) (CFire_mission x) (img_cwc (CFire_location x)) (CFire_etype x) (CFire_warhead x) (CFire_fuze x) (CFire_quantity x) (CFire_rate x) (CFire_velocity x) (CFire_range x).
Lemma BRT_cfire m x : fits_CFire x -> BRT (w_cfire m x) p_cfire (img_cfire x) (bits_cfire x).
Proof.
  destruct x. unfold fits_CFire, w_cfire, p_cfire, bits_cfire, img_cfire, fields_cfire. cbn [CFire_units CFire_firing CFire_target CFire_munition CFire_event CFire_mission CFire_location CFire_etype CFire_warhead CFire_fuze CFire_quantity CFire_rate CFire_velocity CFire_range]. intros (H0 & H1 & H2 & H3 & H4 & H5 & H6 & H7 & H8 & H9 & H10 & H11 & H12 & H13 & H14 & H15).
  brt.
Qed.
Global Hint Resolve BRT_cfire : brt.
Lemma BExt_cfire : BExt p_cfire.
Proof. unfold p_cfire. bext. Qed.
Lemma BSafe_cfire : BSafe p_cfire (fun _ => True).
Proof. unfold p_cfire. bsafe; exact I. Qed.
Global Hint Resolve BExt_cfire : bext.
Global Hint Resolve BSafe_cfire : bsafe.

(** ExplosiveForceFloat: cdis-assemble/src/detonation/model.rs:112-172 *)
Record CForceFloat := MkCForceFloat { CForceFloat_mantissa : Z; CForceFloat_exponent : Z }.
Definition fits_CForceFloat (x : CForceFloat) : Prop :=
  ub 15 (CForceFloat_mantissa x) /\ sb 3 (CForceFloat_exponent x).
Definition w_cforce (m : mode) (x : CForceFloat) : BW :=
  (bput 16 15 (CForceFloat_mantissa x);; bput_s m 8 3 (CForceFloat_exponent x);; wret tt)%write.
Definition p_cforce : bitparser CForceFloat :=
  (mantissa <- btake 15;; exponent <- btake_s 3;; pret (MkCForceFloat mantissa exponent))%parse.
Definition len_cforce (x : CForceFloat) : Z := 18.
Lemma BRT_cforce m x : fits_CForceFloat x -> BRT (w_cforce m x) p_cforce x (len_cforce x).
Proof.
  destruct x. unfold fits_CForceFloat, w_cforce, p_cforce, len_cforce. cbn -[Z.add]. intros (H0 & H1).
  brt.
Qed.
Lemma BExt_cforce : BExt p_cforce.
Proof. unfold p_cforce. bext. Qed.
Lemma BSafe_cforce : BSafe p_cforce fits_CForceFloat.
Proof. unfold p_cforce. bsafe. unfold fits_CForceFloat; cbn; bfin. Qed.
Global Hint Resolve BRT_cforce : brt.
Global Hint Resolve BExt_cforce : bext.
Global Hint Resolve BSafe_cforce : bsafe.

(** ** Detonation: cdis-assemble/src/detonation: model.rs:1-110, parser.rs:12-71, writer.rs:9-48 *)
Record CDetonation := MkCDetonation { CDetonation_units : (Z * Z); CDetonation_source : CEntityId; CDetonation_target : CEntityId; CDetonation_exploding : CEntityId; CDetonation_event : CEntityId; CDetonation_velocity : CLinearVelocity; CDetonation_location : CWorldCoordinates; CDetonation_etype : CEntityType; CDetonation_warhead : option Z; CDetonation_fuze : option Z; CDetonation_quantity : option Z; CDetonation_rate : option Z; CDetonation_material : option Z; CDetonation_force : option CForceFloat; CDetonation_location_entity : CEntityCoordinateVector; CDetonation_result : Z; CDetonation_vps : list CVariableParameter }.
Definition fits_CDetonation (x : CDetonation) : Prop :=
  (ub 1 (fst (CDetonation_units x)) /\ ub 1 (snd (CDetonation_units x))) /\ fits_CEntityId (CDetonation_source x) /\ fits_CEntityId (CDetonation_target x) /\ fits_CEntityId (CDetonation_exploding x) /\ fits_CEntityId (CDetonation_event x) /\ fits_CLinearVelocity (CDetonation_velocity x) /\ fits_CWorldCoordinates (CDetonation_location x) /\ fits_CEntityType (CDetonation_etype x) /\ (forall a, (CDetonation_warhead x) = Some a -> ub 16 a) /\ (forall a, (CDetonation_fuze x) = Some a -> ub 16 a) /\ (forall a, (CDetonation_quantity x) = Some a -> ub 8 a) /\ (forall a, (CDetonation_rate x) = Some a -> ub 8 a) /\ (forall a, (CDetonation_material x) = Some a -> ub 16 a) /\ (forall a, (CDetonation_force x) = Some a -> fits_CForceFloat a) /\ fits_CEntityCoordinateVector (CDetonation_location_entity x) /\ ub 8 (CDetonation_result x) /\ Forall (fun a => fits_CVariableParameter a) (CDetonation_vps x) /\ is_some (CDetonation_warhead x) = is_some (CDetonation_fuze x) /\ is_some (CDetonation_quantity x) = is_some (CDetonation_rate x) /\ is_some (CDetonation_material x) = is_some (CDetonation_force x) /\ zlen (CDetonation_vps x) < 256.
Definition fields_cdetonation (x : CDetonation) : Z :=
  Z.lor (fbit (is_some (CDetonation_warhead x) && is_some (CDetonation_fuze x)) 8) (Z.lor (fbit (is_some (CDetonation_quantity x) && is_some (CDetonation_rate x)) 4) (Z.lor (fbit (is_some (CDetonation_material x) && is_some (CDetonation_force x)) 2) (fbit (nonempty (CDetonation_vps x)) 1))).
Definition w_cdetonation (m : mode) (x : CDetonation) : BW :=
  (bput 8 4 (fields_cdetonation x);; w_units2 (CDetonation_units x);; w_ceid m (CDetonation_source x);; w_ceid m (CDetonation_target x);; w_ceid m (CDetonation_exploding x);; w_ceid m (CDetonation_event x);; w_clvel m (CDetonation_velocity x);; w_cwc m (CDetonation_location x);; w_cet m (CDetonation_etype x);; w_opt (fun a => bput 16 16 a) (CDetonation_warhead x);; w_opt (fun a => bput 16 16 a) (CDetonation_fuze x);; w_opt (fun a => bput 8 8 a) (CDetonation_quantity x);; w_opt (fun a => bput 8 8 a) (CDetonation_rate x);; w_opt (fun a => w_uvint16 a) (CDetonation_material x);; w_opt (fun a => w_cforce m a) (CDetonation_force x);; w_cecv m (CDetonation_location_entity x);; w_uvint8 (CDetonation_result x);; w_cnt8 (CDetonation_vps x);; bw_list (fun a => w_cvp m a) (CDetonation_vps x);; wret tt)%write.
Definition p_cdetonation : bitparser CDetonation :=
  (fp <- btake 4;; units <- p_units2;; source <- p_ceid;; target <- p_ceid;; exploding <- p_ceid;; event <- p_ceid;; velocity <- p_clvel;; location <- p_cwc;; etype <- p_cet;; warhead <- p_when fp 8 (btake 16);; fuze <- p_when fp 8 (btake 16);; quantity <- p_when fp 4 (btake 8);; rate <- p_when fp 4 (btake 8);; material <- p_when fp 2 p_uvint16;; force <- p_when fp 2 p_cforce;; location_entity <- p_cecv;; result <- p_uvint8;; nvp <- p_when fp 1 (btake 8);; vps <- count p_cvp (odflt nvp);; pret (MkCDetonation units source target exploding event velocity location etype warhead fuze quantity rate material force location_entity result vps))%parse.
(** the declared body length: body_length_bits *)
Definition len_cdetonation (x : CDetonation) : Z := 6 + len_ceid (CDetonation_source x) + len_ceid (CDetonation_target x) + len_ceid (CDetonation_exploding x) + len_ceid (CDetonation_event x) + len_clvel (CDetonation_velocity x) + len_cwc (CDetonation_location x) + len_cet (CDetonation_etype x) + opt_len (fun _ => 16) (CDetonation_warhead x) + opt_len (fun _ => 16) (CDetonation_fuze x) + opt_len (fun _ => 8) (CDetonation_quantity x) + opt_len (fun _ => 8) (CDetonation_rate x) + opt_len (fun a => len_uvint16 a) (CDetonation_material x) + opt_len len_cforce (CDetonation_force x) + len_cecv (CDetonation_location_entity x) + len_uvint8 (CDetonation_result x) + cnt8_bits (CDetonation_vps x) + zsum (map len_cvp (CDetonation_vps x)).
(** the bits the writer emits *)
Definition bits_cdetonation (x : CDetonation) : Z := 6 + len_ceid (CDetonation_source x) + len_ceid (CDetonation_target x) + len_ceid (CDetonation_exploding x) + len_ceid (CDetonation_event x) + len_clvel (CDetonation_velocity x) + len_cwc (CDetonation_location x) + len_cet (CDetonation_etype x) + opt_len (fun _ => 16) (CDetonation_warhead x) + opt_len (fun _ => 16) (CDetonation_fuze x) + opt_len (fun _ => 8) (CDetonation_quantity x) + opt_len (fun _ => 8) (CDetonation_rate x) + opt_len (fun a => len_uvint16 a) (CDetonation_material x) + opt_len len_cforce (CDetonation_force x) + len_cecv (CDetonation_location_entity x) + len_uvint8 (CDetonation_result x) + cnt8_bits (CDetonation_vps x) + zsum (map len_cvp (CDetonation_vps x)).
(** what comes back from the wire *)
Definition img_cdetonation (x : CDetonation) : CDetonation :=
  MkCDetonation (CDetonation_units x) (CDetonation_source x) (CDetonation_target x) (CDetonation_exploding x) (CDetonation_event x) (CDetonation_velocity x) (img_cwc (CDetonation_location x)) (CDetonation_etype x) (CDetonation_warhead x) (CDetonation_fuze x) (CDetonation_quantity x) (CDetonation_rate x) (CDetonation_material x) (CDetonation_force x) (CDetonation_location_entity x) (CDetonation_result x) (CDetonation_vps x).
Lemma BRT_cdetonation m x : fits_CDetonation x -> BRT (w_cdetonation m x) p_cdetonation (img_cdetonation x) (bits_cdetonation x).
Proof.
  destruct x. unfold fits_CDetonation, w_cdetonation, p_cdetonation, bits_cdetonation, img_cdetonation, fields_cdetonation. cbn [CDetonation_units CDetonation_source CDetonation_target CDetonation_exploding CDetonation_event CDetonation_velocity CDetonation_location CDetonation_etype CDetonation_warhead CDetonation_fuze CDetonation_quantity CDetonation_rate CDetonation_material CDetonation_force CDetonation_location_entity CDetonation_result CDetonation_vps]. intros (H0 & H1 & H2 & H3 & H4 & H5 & H6 & H7 & H8 & H9 & H10 & H11 & H12 & H13 & H14 & H15 & H16 & H17 & H18 & H19 & H20).
  brt.
Qed.
Global Hint Resolve BRT_cdetonation : brt.
Lemma BExt_cdetonation : BExt p_cdetonation.
Proof. unfold p_cdetonation. bext. Qed.
Lemma BSafe_cdetonation : BSafe p_cdetonation (fun _ => True).
Proof. unfold p_cdetonation. bsafe; exact I. Qed.
Global Hint Resolve BExt_cdetonation : bext.
Global Hint Resolve BSafe_cdetonation : bsafe.

(** ** Signal: cdis-assemble/src/signal: model.rs:1-59, parser.rs:12-42, writer.rs:8-29; the constant part of the declared length counts the encoding class once more than it is written *)
Record CSignal := MkCSignal { CSignal_radio : CEntityId; CSignal_number : Z; CSignal_encoding : CEncodingScheme; CSignal_tdl : Z; CSignal_rate : option Z; CSignal_samples : option Z; CSignal_data : list Z }.
Definition fits_CSignal (x : CSignal) : Prop :=
  fits_CEntityId (CSignal_radio x) /\ ub 16 (CSignal_number x) /\ fits_CEncodingScheme (CSignal_encoding x) /\ ub 8 (CSignal_tdl x) /\ (forall a, (CSignal_rate x) = Some a -> ub 32 a) /\ (forall a, (CSignal_samples x) = Some a -> ub 16 a) /\ Forall (fun a => ub 8 a) (CSignal_data x) /\ zlen (CSignal_data x) <= 2047.
Definition fields_csignal (x : CSignal) : Z :=
  Z.lor (fbit (is_some (CSignal_rate x)) 2) (fbit (is_some (CSignal_samples x)) 1).
Definition w_csignal (m : mode) (x : CSignal) : BW :=
  (bput 8 2 (fields_csignal x);; w_ceid m (CSignal_radio x);; w_uvint16 (CSignal_number x);; w_cencoding m (CSignal_encoding x);; bput 16 8 (CSignal_tdl x);; w_opt (fun a => w_uvint32 a) (CSignal_rate x);; bput 64 14 (8 * zlen (CSignal_data x));; w_opt (fun a => w_uvint16 a) (CSignal_samples x);; bw_list (fun a => bput 8 8 a) (CSignal_data x);; wret tt)%write.
Definition p_csignal : bitparser CSignal :=
  (fp <- btake 2;; radio <- p_ceid;; number <- p_uvint16;; encoding <- p_cencoding;; tdl <- btake 8;; rate <- p_when fp 2 p_uvint32;; dlen <- btake 14;; samples <- p_when fp 1 p_uvint16;; data <- count (btake 8) (dlen / 8);; pret (MkCSignal radio number encoding tdl rate samples data))%parse.
(** the declared body length: body_length_bits *)
Definition len_csignal (x : CSignal) : Z := 26 + len_ceid (CSignal_radio x) + len_uvint16 (CSignal_number x) + len_cencoding (CSignal_encoding x) + opt_len (fun a => len_uvint32 a) (CSignal_rate x) + opt_len (fun a => len_uvint16 a) (CSignal_samples x) + 8 * zlen (CSignal_data x).
(** the bits the writer emits *)
Definition bits_csignal (x : CSignal) : Z := 24 + len_ceid (CSignal_radio x) + len_uvint16 (CSignal_number x) + len_cencoding (CSignal_encoding x) + opt_len (fun a => len_uvint32 a) (CSignal_rate x) + opt_len (fun a => len_uvint16 a) (CSignal_samples x) + 8 * zlen (CSignal_data x).
Lemma BRT_csignal m x : fits_CSignal x -> BRT (w_csignal m x) p_csignal x (bits_csignal x).
Proof.
  destruct x. unfold fits_CSignal, w_csignal, p_csignal, bits_csignal, fields_csignal. cbn [CSignal_radio CSignal_number CSignal_encoding CSignal_tdl CSignal_rate CSignal_samples CSignal_data]. intros (H0 & H1 & H2 & H3 & H4 & H5 & H6 & H7).
  rewrite Forall_forall in H6. pose proof (zlen_nonneg CSignal_data0).
  eapply BRT_conv; [repeat brt_step|try reflexivity|].
  eapply BRT_bind; [apply (BRT_list _ _ (fun _ => 8)); [rewrite Z.mul_comm, Z_div_mult; lia|intros; apply BRT_put; auto; lia]|]. apply BRT_ret.
  all: try reflexivity; rewrite zsum_k; lia.
Qed.
Global Hint Resolve BRT_csignal : brt.
Lemma BExt_csignal : BExt p_csignal.
Proof. unfold p_csignal. bext. Qed.
Lemma BSafe_csignal : BSafe p_csignal (fun _ => True).
Proof. unfold p_csignal. bsafe; exact I. Qed.
Global Hint Resolve BExt_csignal : bext.
Global Hint Resolve BSafe_csignal : bsafe.

(** ** Receiver: cdis-assemble/src/receiver: model.rs:1-30, parser.rs:11-31, writer.rs:8-21 *)
Record CReceiver := MkCReceiver { CReceiver_radio : CEntityId; CReceiver_number : Z; CReceiver_state : Z; CReceiver_power : Z; CReceiver_tradio : CEntityId; CReceiver_tnumber : Z }.
Definition fits_CReceiver (x : CReceiver) : Prop :=
  fits_CEntityId (CReceiver_radio x) /\ ub 16 (CReceiver_number x) /\ ub 2 (CReceiver_state x) /\ sb 9 (CReceiver_power x) /\ fits_CEntityId (CReceiver_tradio x) /\ ub 16 (CReceiver_tnumber x).
Definition w_creceiver (m : mode) (x : CReceiver) : BW :=
  (w_ceid m (CReceiver_radio x);; w_uvint16 (CReceiver_number x);; bput 16 2 (CReceiver_state x);; bput_s m 16 9 (CReceiver_power x);; w_ceid m (CReceiver_tradio x);; w_uvint16 (CReceiver_tnumber x);; wret tt)%write.
Definition p_creceiver : bitparser CReceiver :=
  (radio <- p_ceid;; number <- p_uvint16;; state <- btake 2;; power <- btake_s 9;; tradio <- p_ceid;; tnumber <- p_uvint16;; pret (MkCReceiver radio number state power tradio tnumber))%parse.
(** the declared body length: body_length_bits *)
Definition len_creceiver (x : CReceiver) : Z := 11 + len_ceid (CReceiver_radio x) + len_uvint16 (CReceiver_number x) + len_ceid (CReceiver_tradio x) + len_uvint16 (CReceiver_tnumber x).
(** the bits the writer emits *)
Definition bits_creceiver (x : CReceiver) : Z := 11 + len_ceid (CReceiver_radio x) + len_uvint16 (CReceiver_number x) + len_ceid (CReceiver_tradio x) + len_uvint16 (CReceiver_tnumber x).
Lemma BRT_creceiver m x : fits_CReceiver x -> BRT (w_creceiver m x) p_creceiver x (bits_creceiver x).
Proof.
  destruct x. unfold fits_CReceiver, w_creceiver, p_creceiver, bits_creceiver. cbn [CReceiver_radio CReceiver_number CReceiver_state CReceiver_power CReceiver_tradio CReceiver_tnumber]. intros (H0 & H1 & H2 & H3 & H4 & H5).
  brt.
Qed.
Global Hint Resolve BRT_creceiver : brt.
Lemma BExt_creceiver : BExt p_creceiver.
Proof. unfold p_creceiver. bext. Qed.
Lemma BSafe_creceiver : BSafe p_creceiver (fun _ => True).
Proof. unfold p_creceiver. bsafe; exact I. Qed.
Global Hint Resolve BExt_creceiver : bext.
Global Hint Resolve BSafe_creceiver : bsafe.

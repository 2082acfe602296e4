(** * C-DIS PDU bodies with state: entity state, electromagnetic emission, designator, transmitter, IFF

    Models cdis-assemble/src/{entity_state,electromagnetic_emission,designator,transmitter,iff}/{model,parser,writer}.rs in the
    conventions of [CdisBodies1]. *)
From Coq Require Import ZArith List Lia Bool.
From Verif Require Import Base DisCommon DisEntity DisEmission DisRadio DisIff CdisBase CdisRecords CdisBodies1.
Import ListNotations. Open Scope Z_scope.

(** ** Counting the bits a writer emits, without reading them back *)
Definition BLen (w : BW) (L : Z) : Prop := exists bs, w = WOk bs tt /\ zlen bs = L.
Lemma BLen_of {A} (w : BW) (p : bitparser A) x L : BRT w p x L -> BLen w L.
Proof. intros (bs & H1 & H2 & _). exists bs. auto. Qed.
Lemma BLen_ret : BLen (wret tt) 0.
Proof. exists []. auto. Qed.
Lemma BLen_bind (w1 : BW) (k : unit -> BW) L1 L2 : BLen w1 L1 -> BLen (k tt) L2 -> BLen (wbind w1 k) (L1 + L2).
Proof. intros (b1 & -> & H1) (b2 & H2 & H3). exists (b1 ++ b2). unfold wbind. rewrite H2. split; [reflexivity|]. rewrite zlen_app; lia. Qed.
Lemma BLen_conv w L L' : BLen w L -> L = L' -> BLen w L'.
Proof. intros H ->. exact H. Qed.
Lemma BLen_put ty n v : 1 <= n <= ty -> BLen (bput ty n v) n.
Proof. intros H. eapply BLen_of, (BRT_put_mod ty n v); lia. Qed.
Lemma BLen_opt {A} (w : A -> BW) len o : (forall a, o = Some a -> BLen (w a) (len a)) -> BLen (w_opt w o) (opt_len len o).
Proof. intros H. destruct o as [a|]; cbn [w_opt opt_len]; [now apply H|apply BLen_ret]. Qed.
Lemma BLen_list {A} (w : A -> BW) len l : (forall a, In a l -> BLen (w a) (len a)) -> BLen (bw_list w l) (zsum (map len l)).
Proof.
  induction l as [|a l IH]; intros H; cbn [bw_list map zsum]; [apply BLen_ret|].
  apply BLen_bind; [apply H; now left|apply IH; intros; apply H; now right].
Qed.
(** [if present { parser } else { None }] *)
Definition p_if {A} (b : bool) (p : bitparser A) : bitparser (option A) := if b then (a <- p;; pret (Some a))%parse else pret None.
Lemma BRT_if_img {A} (w : A -> BW) (p : bitparser A) img len o b : b = is_some o -> (forall a, o = Some a -> BRT (w a) p (img a) (len a)) ->
  BRT (w_opt w o) (p_if b p) (option_map img o) (opt_len len o).
Proof.
  intros -> H. unfold p_if. destruct o as [a|]; cbn [is_some w_opt option_map opt_len]; [|apply BRT_ret].
  eapply BRT_end; [apply H; reflexivity|reflexivity].
Qed.
Lemma BRT_if {A} (w : A -> BW) (p : bitparser A) len o b : b = is_some o -> (forall a, o = Some a -> BRT (w a) p a (len a)) ->
  BRT (w_opt w o) (p_if b p) o (opt_len len o).
Proof. intros Hb H. rewrite <- (option_map_id o) at 2. apply (BRT_if_img w p (fun x => x)); assumption. Qed.
Lemma BExt_if {A} b (p : bitparser A) : BExt p -> BExt (p_if b p).
Proof. intros H. unfold p_if. destruct b; [|apply BExt_ret]. apply BExt_bind; [exact H|intros; apply BExt_ret]. Qed.
Lemma BSafe_if {A} b (p : bitparser A) P : BSafe p P -> BSafe (p_if b p) (fun _ => True).
Proof. intros H. unfold p_if. destruct b; [|now apply BSafe_ret]. eapply BSafe_bind; [exact H|]. intros. now apply BSafe_ret. Qed.
Global Hint Resolve BExt_if : bext.
Global Hint Extern 3 (BSafe (p_if _ _) _) => eapply BSafe_if : bsafe.

(** ** EntityState: cdis-assemble/src/entity_state: model.rs:11-163, parser.rs:14-87, writer.rs:7-54. The appearance, the capabilities and the other dead-reckoning parameters are kept in wire format by the program *)
Record CEntityState := MkCEntityState { CEntityState_units : Z; CEntityState_full : bool; CEntityState_id : CEntityId; CEntityState_force : option Z; CEntityState_etype : option CEntityType; CEntityState_alt : option CEntityType; CEntityState_velocity : option CLinearVelocity; CEntityState_location : option CWorldCoordinates; CEntityState_orientation : option COrientation; CEntityState_appearance : option Z; CEntityState_dr_algorithm : Z; CEntityState_dr_other : option Z; CEntityState_dr_acceleration : option CLinearAcceleration; CEntityState_dr_angular : option CAngularVelocity; CEntityState_marking : option CMarking; CEntityState_capabilities : option Z; CEntityState_vps : list CVariableParameter }.
Definition fits_CEntityState (x : CEntityState) : Prop :=
  ub 1 (CEntityState_units x) /\ fits_CEntityId (CEntityState_id x) /\ (forall a, (CEntityState_force x) = Some a -> ub 8 a) /\ (forall a, (CEntityState_etype x) = Some a -> fits_CEntityType a) /\ (forall a, (CEntityState_alt x) = Some a -> fits_CEntityType a) /\ (forall a, (CEntityState_velocity x) = Some a -> fits_CLinearVelocity a) /\ (forall a, (CEntityState_location x) = Some a -> fits_CWorldCoordinates a) /\ (forall a, (CEntityState_orientation x) = Some a -> fits_COrientation a) /\ (forall a, (CEntityState_appearance x) = Some a -> ub 32 a) /\ ub 4 (CEntityState_dr_algorithm x) /\ (forall a, (CEntityState_dr_other x) = Some a -> ub 120 a) /\ (forall a, (CEntityState_dr_acceleration x) = Some a -> fits_CLinearAcceleration a) /\ (forall a, (CEntityState_dr_angular x) = Some a -> fits_CAngularVelocity a) /\ (forall a, (CEntityState_marking x) = Some a -> fits_CMarking a) /\ (forall a, (CEntityState_capabilities x) = Some a -> ub 32 a) /\ Forall (fun a => fits_CVariableParameter a) (CEntityState_vps x) /\ zlen (CEntityState_vps x) < 256.
Definition fields_ces (x : CEntityState) : Z :=
  Z.lor (fbit (is_some (CEntityState_force x)) 4096) (Z.lor (fbit (nonempty (CEntityState_vps x)) 2048) (Z.lor (fbit (is_some (CEntityState_etype x)) 1024) (Z.lor (fbit (is_some (CEntityState_alt x)) 512) (Z.lor (fbit (is_some (CEntityState_velocity x)) 256) (Z.lor (fbit (is_some (CEntityState_location x)) 128) (Z.lor (fbit (is_some (CEntityState_orientation x)) 64) (Z.lor (fbit (is_some (CEntityState_appearance x)) 32) (Z.lor (fbit (is_some (CEntityState_dr_other x)) 16) (Z.lor (fbit (is_some (CEntityState_dr_acceleration x)) 8) (Z.lor (fbit (is_some (CEntityState_dr_angular x)) 4) (Z.lor (fbit (is_some (CEntityState_marking x)) 2) (fbit (is_some (CEntityState_capabilities x)) 1)))))))))))).
Definition w_ces (m : mode) (x : CEntityState) : BW :=
  (bput 16 13 (fields_ces x);; bput 8 1 (CEntityState_units x);; bput 8 1 (Z.b2z (CEntityState_full x));; w_ceid m (CEntityState_id x);; w_opt (fun a => w_uvint8 a) (CEntityState_force x);; w_cnt (CEntityState_vps x);; w_opt (fun a => w_cet m a) (CEntityState_etype x);; w_opt (fun a => w_cet m a) (CEntityState_alt x);; w_opt (fun a => w_clvel m a) (CEntityState_velocity x);; w_opt (fun a => w_cwc m a) (CEntityState_location x);; w_opt (fun a => w_corient m a) (CEntityState_orientation x);; w_opt (fun a => bput 32 32 a) (CEntityState_appearance x);; bput 8 4 (CEntityState_dr_algorithm x);; w_opt (fun a => bput 128 120 a) (CEntityState_dr_other x);; w_opt (fun a => w_clacc m a) (CEntityState_dr_acceleration x);; w_opt (fun a => w_cavel m a) (CEntityState_dr_angular x);; w_opt (fun a => w_cmarking m a) (CEntityState_marking x);; w_opt (fun a => w_uvint32 a) (CEntityState_capabilities x);; bw_list (fun a => w_cvp m a) (CEntityState_vps x);; wret tt)%write.
Definition p_ces : bitparser CEntityState :=
  (fp <- btake 13;; units <- btake 1;; full <- bbool;; id <- p_ceid;; force <- p_when fp 4096 p_uvint8;; nvp <- p_when fp 2048 p_uvint8;; etype <- p_when fp 1024 p_cet;; alt <- p_when fp 512 p_cet;; velocity <- p_when fp 256 p_clvel;; location <- p_when fp 128 p_cwc;; orientation <- p_when fp 64 p_corient;; appearance <- p_when fp 32 (btake 32);; dr_algorithm <- btake 4;; dr_other <- p_when fp 16 (btake 120);; dr_acceleration <- p_when fp 8 p_clacc;; dr_angular <- p_when fp 4 p_cavel;; marking <- p_when fp 2 p_cmarking;; capabilities <- p_when fp 1 p_uvint32;; vps <- count p_cvp (odflt nvp);; pret (MkCEntityState units full id force etype alt velocity location orientation appearance dr_algorithm dr_other dr_acceleration dr_angular marking capabilities vps))%parse.
(** the declared body length: body_length_bits *)
Definition len_ces (x : CEntityState) : Z := 19 + len_ceid (CEntityState_id x) + opt_len (fun a => len_uvint8 a) (CEntityState_force x) + opt_len len_cet (CEntityState_etype x) + opt_len len_cet (CEntityState_alt x) + opt_len len_clvel (CEntityState_velocity x) + opt_len len_cwc (CEntityState_location x) + opt_len len_corient (CEntityState_orientation x) + opt_len (fun _ => 32) (CEntityState_appearance x) + opt_len (fun _ => 120) (CEntityState_dr_other x) + opt_len len_clacc (CEntityState_dr_acceleration x) + opt_len len_cavel (CEntityState_dr_angular x) + opt_len len_cmarking (CEntityState_marking x) + opt_len (fun a => len_uvint32 a) (CEntityState_capabilities x) + cnt_bits (CEntityState_vps x) + zsum (map len_cvp (CEntityState_vps x)).
(** the bits the writer emits *)
Definition bits_ces (x : CEntityState) : Z := 19 + len_ceid (CEntityState_id x) + opt_len (fun a => len_uvint8 a) (CEntityState_force x) + opt_len len_cet (CEntityState_etype x) + opt_len len_cet (CEntityState_alt x) + opt_len len_clvel (CEntityState_velocity x) + opt_len len_cwc (CEntityState_location x) + opt_len len_corient (CEntityState_orientation x) + opt_len (fun _ => 32) (CEntityState_appearance x) + opt_len (fun _ => 120) (CEntityState_dr_other x) + opt_len len_clacc (CEntityState_dr_acceleration x) + opt_len len_cavel (CEntityState_dr_angular x) + opt_len len_cmarking (CEntityState_marking x) + opt_len (fun a => len_uvint32 a) (CEntityState_capabilities x) + cnt_bits (CEntityState_vps x) + zsum (map len_cvp (CEntityState_vps x)).
(** what comes back from the wire *)
Definition img_ces (x : CEntityState) : CEntityState :=
  MkCEntityState (CEntityState_units x) (CEntityState_full x) (CEntityState_id x) (CEntityState_force x) (CEntityState_etype x) (CEntityState_alt x) (CEntityState_velocity x) (option_map (fun a => img_cwc a) (CEntityState_location x)) (CEntityState_orientation x) (CEntityState_appearance x) (CEntityState_dr_algorithm x) (CEntityState_dr_other x) (CEntityState_dr_acceleration x) (CEntityState_dr_angular x) (CEntityState_marking x) (CEntityState_capabilities x) (CEntityState_vps x).
Lemma BRT_ces m x : fits_CEntityState x -> BRT (w_ces m x) p_ces (img_ces x) (bits_ces x).
Proof.
  destruct x. unfold fits_CEntityState, w_ces, p_ces, bits_ces, img_ces, fields_ces. cbn [CEntityState_units CEntityState_full CEntityState_id CEntityState_force CEntityState_etype CEntityState_alt CEntityState_velocity CEntityState_location CEntityState_orientation CEntityState_appearance CEntityState_dr_algorithm CEntityState_dr_other CEntityState_dr_acceleration CEntityState_dr_angular CEntityState_marking CEntityState_capabilities CEntityState_vps]. intros (H0 & H1 & H2 & H3 & H4 & H5 & H6 & H7 & H8 & H9 & H10 & H11 & H12 & H13 & H14 & H15 & H16).
  brt.
Qed.
Global Hint Resolve BRT_ces : brt.
Lemma BExt_ces : BExt p_ces.
Proof. unfold p_ces. bext. Qed.
Lemma BSafe_ces : BSafe p_ces (fun _ => True).
Proof. unfold p_ces. bsafe; exact I. Qed.
Global Hint Resolve BExt_ces : bext.
Global Hint Resolve BSafe_ces : bsafe.

(** ** Designator: cdis-assemble/src/designator: model.rs:8-92, parser.rs:12-61, writer.rs:7-42 *)
Record CDesignator := MkCDesignator { CDesignator_units : (Z * Z); CDesignator_full : bool; CDesignator_id : CEntityId; CDesignator_code_name : option Z; CDesignator_designated : option CEntityId; CDesignator_code : option Z; CDesignator_power : option Z; CDesignator_wavelength : option Z; CDesignator_spot_entity : option CEntityCoordinateVector; CDesignator_spot_location : option CWorldCoordinates; CDesignator_dr_algorithm : option Z; CDesignator_dr_acceleration : option CLinearAcceleration }.
Definition fits_CDesignator (x : CDesignator) : Prop :=
  (ub 1 (fst (CDesignator_units x)) /\ ub 1 (snd (CDesignator_units x))) /\ fits_CEntityId (CDesignator_id x) /\ (forall a, (CDesignator_code_name x) = Some a -> ub 16 a) /\ (forall a, (CDesignator_designated x) = Some a -> fits_CEntityId a) /\ (forall a, (CDesignator_code x) = Some a -> ub 16 a) /\ (forall a, (CDesignator_power x) = Some a -> ub 32 a) /\ (forall a, (CDesignator_wavelength x) = Some a -> ub 32 a) /\ (forall a, (CDesignator_spot_entity x) = Some a -> fits_CEntityCoordinateVector a) /\ (forall a, (CDesignator_spot_location x) = Some a -> fits_CWorldCoordinates a) /\ (forall a, (CDesignator_dr_algorithm x) = Some a -> ub 4 a) /\ (forall a, (CDesignator_dr_acceleration x) = Some a -> fits_CLinearAcceleration a) /\ is_some (CDesignator_spot_entity x) = is_some (CDesignator_designated x) /\ is_some (CDesignator_code x) = is_some (CDesignator_code_name x) /\ is_some (CDesignator_power x) = is_some (CDesignator_code_name x) /\ is_some (CDesignator_wavelength x) = is_some (CDesignator_code_name x) /\ is_some (CDesignator_dr_acceleration x) = is_some (CDesignator_dr_algorithm x).
Definition fields_cdesignator (x : CDesignator) : Z :=
  Z.lor (fbit (is_some (CDesignator_designated x) && is_some (CDesignator_spot_entity x)) 8) (Z.lor (fbit (is_some (CDesignator_code_name x) && is_some (CDesignator_code x) && is_some (CDesignator_power x) && is_some (CDesignator_wavelength x)) 4) (Z.lor (fbit (is_some (CDesignator_spot_location x)) 2) (fbit (is_some (CDesignator_dr_algorithm x) && is_some (CDesignator_dr_acceleration x)) 1))).
Definition w_cdesignator (m : mode) (x : CDesignator) : BW :=
  (bput 8 4 (fields_cdesignator x);; w_units2 (CDesignator_units x);; bput 8 1 (Z.b2z (CDesignator_full x));; w_ceid m (CDesignator_id x);; w_opt (fun a => bput 16 16 a) (CDesignator_code_name x);; w_opt (fun a => w_ceid m a) (CDesignator_designated x);; w_opt (fun a => w_uvint16 a) (CDesignator_code x);; w_opt (fun a => w_uvint32 a) (CDesignator_power x);; w_opt (fun a => w_uvint32 a) (CDesignator_wavelength x);; w_opt (fun a => w_cecv m a) (CDesignator_spot_entity x);; w_opt (fun a => w_cwc m a) (CDesignator_spot_location x);; w_opt (fun a => bput 8 4 a) (CDesignator_dr_algorithm x);; w_opt (fun a => w_clacc m a) (CDesignator_dr_acceleration x);; wret tt)%write.
Definition p_cdesignator : bitparser CDesignator :=
  (fp <- btake 4;; units <- p_units2;; full <- bbool;; id <- p_ceid;; code_name <- p_when fp 4 (btake 16);; designated <- p_when fp 8 p_ceid;; code <- p_when fp 4 p_uvint16;; power <- p_when fp 4 p_uvint32;; wavelength <- p_when fp 4 p_uvint32;; spot_entity <- p_when fp 8 p_cecv;; spot_location <- p_when fp 2 p_cwc;; dr_algorithm <- p_when fp 1 (btake 4);; dr_acceleration <- p_when fp 1 p_clacc;; pret (MkCDesignator units full id code_name designated code power wavelength spot_entity spot_location dr_algorithm dr_acceleration))%parse.
(** the declared body length: body_length_bits *)
Definition len_cdesignator (x : CDesignator) : Z := 7 + len_ceid (CDesignator_id x) + opt_len (fun _ => 16) (CDesignator_code_name x) + opt_len len_ceid (CDesignator_designated x) + opt_len (fun a => len_uvint16 a) (CDesignator_code x) + opt_len (fun a => len_uvint32 a) (CDesignator_power x) + opt_len (fun a => len_uvint32 a) (CDesignator_wavelength x) + opt_len len_cecv (CDesignator_spot_entity x) + opt_len len_cwc (CDesignator_spot_location x) + opt_len (fun _ => 4) (CDesignator_dr_algorithm x) + opt_len len_clacc (CDesignator_dr_acceleration x).
(** the bits the writer emits *)
Definition bits_cdesignator (x : CDesignator) : Z := 7 + len_ceid (CDesignator_id x) + opt_len (fun _ => 16) (CDesignator_code_name x) + opt_len len_ceid (CDesignator_designated x) + opt_len (fun a => len_uvint16 a) (CDesignator_code x) + opt_len (fun a => len_uvint32 a) (CDesignator_power x) + opt_len (fun a => len_uvint32 a) (CDesignator_wavelength x) + opt_len len_cecv (CDesignator_spot_entity x) + opt_len len_cwc (CDesignator_spot_location x) + opt_len (fun _ => 4) (CDesignator_dr_algorithm x) + opt_len len_clacc (CDesignator_dr_acceleration x).
(** what comes back from the wire *)
Definition img_cdesignator (x : CDesignator) : CDesignator :=
  MkCDesignator (CDesignator_units x) (CDesignator_full x) (CDesignator_id x) (CDesignator_code_name x) (CDesignator_designated x) (CDesignator_code x) (CDesignator_power x) (CDesignator_wavelength x) (CDesignator_spot_entity x) (option_map (fun a => img_cwc a) (CDesignator_spot_location x)) (CDesignator_dr_algorithm x) (CDesignator_dr_acceleration x).
Lemma BRT_cdesignator m x : fits_CDesignator x -> BRT (w_cdesignator m x) p_cdesignator (img_cdesignator x) (bits_cdesignator x).
Proof.
  destruct x. unfold fits_CDesignator, w_cdesignator, p_cdesignator, bits_cdesignator, img_cdesignator, fields_cdesignator. cbn [CDesignator_units CDesignator_full CDesignator_id CDesignator_code_name CDesignator_designated CDesignator_code CDesignator_power CDesignator_wavelength CDesignator_spot_entity CDesignator_spot_location CDesignator_dr_algorithm CDesignator_dr_acceleration]. intros (H0 & H1 & H2 & H3 & H4 & H5 & H6 & H7 & H8 & H9 & H10 & H11 & H12 & H13 & H14 & H15).
  brt.
Qed.
Global Hint Resolve BRT_cdesignator : brt.
Lemma BExt_cdesignator : BExt p_cdesignator.
Proof. unfold p_cdesignator. bext. Qed.
Lemma BSafe_cdesignator : BSafe p_cdesignator (fun _ => True).
Proof. unfold p_cdesignator. bsafe; exact I. Qed.
Global Hint Resolve BExt_cdesignator : bext.
Global Hint Resolve BSafe_cdesignator : bsafe.

(** PulseWidthFloat: electromagnetic_emission/model.rs:154-211 *)
Record CPulseWidth := MkCPulseWidth { CPulseWidth_mantissa : Z; CPulseWidth_exponent : Z }.
Definition fits_CPulseWidth (x : CPulseWidth) : Prop :=
  ub 14 (CPulseWidth_mantissa x) /\ sb 3 (CPulseWidth_exponent x).
Definition w_cpw (m : mode) (x : CPulseWidth) : BW :=
  (bput 16 14 (CPulseWidth_mantissa x);; bput_s m 8 3 (CPulseWidth_exponent x);; wret tt)%write.
Definition p_cpw : bitparser CPulseWidth :=
  (mantissa <- btake 14;; exponent <- btake_s 3;; pret (MkCPulseWidth mantissa exponent))%parse.
Definition len_cpw (x : CPulseWidth) : Z := 17.
Lemma BRT_cpw m x : fits_CPulseWidth x -> BRT (w_cpw m x) p_cpw x (len_cpw x).
Proof.
  destruct x. unfold fits_CPulseWidth, w_cpw, p_cpw, len_cpw. cbn -[Z.add]. intros (H0 & H1).
  brt.
Qed.
Lemma BExt_cpw : BExt p_cpw.
Proof. unfold p_cpw. bext. Qed.
Lemma BSafe_cpw : BSafe p_cpw fits_CPulseWidth.
Proof. unfold p_cpw. bsafe. unfold fits_CPulseWidth; cbn; bfin. Qed.
Global Hint Resolve BRT_cpw : brt.
Global Hint Resolve BExt_cpw : bext.
Global Hint Resolve BSafe_cpw : bsafe.

(** FundamentalParameter: electromagnetic_emission/model.rs:57-71, parser.rs:50-64, writer.rs:36-47 *)
Record CFundamentalParameter := MkCFundamentalParameter { CFundamentalParameter_frequency : CFrequencyFloat; CFundamentalParameter_range : CFrequencyFloat; CFundamentalParameter_erp : Z; CFundamentalParameter_prf : Z; CFundamentalParameter_pulse : CPulseWidth }.
Definition fits_CFundamentalParameter (x : CFundamentalParameter) : Prop :=
  fits_CFrequencyFloat (CFundamentalParameter_frequency x) /\ fits_CFrequencyFloat (CFundamentalParameter_range x) /\ ub 8 (CFundamentalParameter_erp x) /\ ub 16 (CFundamentalParameter_prf x) /\ fits_CPulseWidth (CFundamentalParameter_pulse x).
Definition w_cfp (m : mode) (x : CFundamentalParameter) : BW :=
  (w_cff m (CFundamentalParameter_frequency x);; w_cff m (CFundamentalParameter_range x);; bput 8 8 (CFundamentalParameter_erp x);; w_uvint16 (CFundamentalParameter_prf x);; w_cpw m (CFundamentalParameter_pulse x);; wret tt)%write.
Definition p_cfp : bitparser CFundamentalParameter :=
  (frequency <- p_cff;; range <- p_cff;; erp <- btake 8;; prf <- p_uvint16;; pulse <- p_cpw;; pret (MkCFundamentalParameter frequency range erp prf pulse))%parse.
Definition len_cfp (x : CFundamentalParameter) : Z := 67 + len_uvint16 (CFundamentalParameter_prf x).
Lemma BRT_cfp m x : fits_CFundamentalParameter x -> BRT (w_cfp m x) p_cfp x (len_cfp x).
Proof.
  destruct x. unfold fits_CFundamentalParameter, w_cfp, p_cfp, len_cfp. cbn -[Z.add]. intros (H0 & H1 & H2 & H3 & H4).
  eapply BRT_conv; [repeat brt_step|reflexivity|unfold len_cff, len_cpw; lia].
Qed.
Lemma BExt_cfp : BExt p_cfp.
Proof. unfold p_cfp. bext. Qed.
Lemma BSafe_cfp : BSafe p_cfp fits_CFundamentalParameter.
Proof. unfold p_cfp. bsafe. unfold fits_CFundamentalParameter; cbn; bfin. Qed.
Global Hint Resolve BRT_cfp : brt.
Global Hint Resolve BExt_cfp : bext.
Global Hint Resolve BSafe_cfp : bsafe.

(** SiteAppPair: electromagnetic_emission/model.rs:73-84, parser.rs:66-74, writer.rs:49-57 *)
Record CSiteApp := MkCSiteApp { CSiteApp_site : Z; CSiteApp_app : Z }.
Definition fits_CSiteApp (x : CSiteApp) : Prop :=
  ub 16 (CSiteApp_site x) /\ ub 16 (CSiteApp_app x).
Definition w_csa (m : mode) (x : CSiteApp) : BW :=
  (w_uvint16 (CSiteApp_site x);; w_uvint16 (CSiteApp_app x);; wret tt)%write.
Definition p_csa : bitparser CSiteApp :=
  (site <- p_uvint16;; app <- p_uvint16;; pret (MkCSiteApp site app))%parse.
Definition len_csa (x : CSiteApp) : Z := len_uvint16 (CSiteApp_site x) + len_uvint16 (CSiteApp_app x).
Lemma BRT_csa m x : fits_CSiteApp x -> BRT (w_csa m x) p_csa x (len_csa x).
Proof.
  destruct x. unfold fits_CSiteApp, w_csa, p_csa, len_csa. cbn -[Z.add]. intros (H0 & H1).
  brt.
Qed.
Lemma BExt_csa : BExt p_csa.
Proof. unfold p_csa. bext. Qed.
Lemma BSafe_csa : BSafe p_csa fits_CSiteApp.
Proof. unfold p_csa. bsafe. unfold fits_CSiteApp; cbn; bfin. Qed.
Global Hint Resolve BRT_csa : brt.
Global Hint Resolve BExt_csa : bext.
Global Hint Resolve BSafe_csa : bsafe.

(** TrackJam: electromagnetic_emission/model.rs:136-152, parser.rs:181-200, writer.rs:134-149. The site/application index is written
    in six bits and read from four. *)
Record CTrackJam := MkCTrackJam { ctj_index : Z; ctj_entity : Z; ctj_emitter : option Z; ctj_beam : option Z }.
Definition w_ctj (m : mode) (x : CTrackJam) : BW :=
  (bput 8 6 (ctj_index x);; w_uvint16 (ctj_entity x);; w_opt (fun a => w_uvint8 a) (ctj_emitter x);; w_opt (fun a => w_uvint8 a) (ctj_beam x);; wret tt)%write.
Definition p_ctj (flag : bool) : bitparser CTrackJam :=
  (i <- btake 4;; e <- p_uvint16;;
   if flag then (n <- p_uvint8;; b <- p_uvint8;; pret (MkCTrackJam i e (Some n) (Some b))) else pret (MkCTrackJam i e None None))%parse.
Definition len_ctj (x : CTrackJam) : Z := 6 + len_uvint16 (ctj_entity x) + opt_len (fun a => len_uvint8 a) (ctj_emitter x) + opt_len (fun a => len_uvint8 a) (ctj_beam x).
Definition fits_CTrackJam x := ub 8 (ctj_index x) /\ ub 16 (ctj_entity x) /\ (forall a, ctj_emitter x = Some a -> ub 8 a) /\ (forall a, ctj_beam x = Some a -> ub 8 a).
(** EmitterBeam: model.rs:107-134, parser.rs:114-179, writer.rs:88-132. The enumerations as numbers. *)
Record CEmitterBeam := MkCEmitterBeam { ceb_id : Z; ceb_param : Z; ceb_fp_index : option Z; ceb_bd_index : option Z; ceb_function : Z; ceb_density : Z; ceb_status : bool;
  ceb_kind : option Z; ceb_category : option Z; ceb_subcategory : option Z; ceb_specific : option Z; ceb_tracks : list CTrackJam }.
Definition ceb_track_flag (l : list CTrackJam) : bool := match l with t :: _ => is_some (ctj_beam t) && is_some (ctj_emitter t) | [] => false end.
Definition w_ceb (m : mode) (x : CEmitterBeam) : BW :=
  (bput 8 1 (Z.b2z (is_some (ceb_fp_index x)));; bput 8 1 (Z.b2z (is_some (ceb_bd_index x)));; bput 8 1 (Z.b2z (is_some (ceb_kind x)));;
   bput 8 1 (Z.b2z (ceb_track_flag (ceb_tracks x)));; w_uvint8 (ceb_id x);; bput 16 16 (ceb_param x);;
   w_opt (fun a => bput 8 5 a) (ceb_fp_index x);; w_opt (fun a => bput 8 5 a) (ceb_bd_index x);; bput 8 5 (ceb_function x);;
   bput 64 4 (zlen (ceb_tracks x));; bput 8 1 (ceb_density x);; bput 8 1 (Z.b2z (ceb_status x));;
   w_opt (fun a => w_uvint8 a) (ceb_kind x);; w_opt (fun a => w_uvint8 a) (ceb_category x);; w_opt (fun a => w_uvint8 a) (ceb_subcategory x);; w_opt (fun a => w_uvint8 a) (ceb_specific x);;
   bw_list (fun a => w_ctj m a) (ceb_tracks x);; wret tt)%write.
Definition p_jamming (flag : bool) : bitparser (option Z * option Z * option Z * option Z) :=
  (if flag then (a <- p_uvint8;; b <- p_uvint8;; c <- p_uvint8;; d <- p_uvint8;; pret (Some a, Some b, Some c, Some d)) else pret (None, None, None, None))%parse.
Definition p_ceb : bitparser CEmitterBeam :=
  (f1 <- bbool;; f2 <- bbool;; f3 <- bbool;; f4 <- bbool;; id <- p_uvint8;; param <- btake 16;; fpi <- p_if f1 (btake 5);; bdi <- p_if f2 (btake 5);; fn <- btake 5;;
   n <- btake 4;; density <- btake 1;; status <- bbool;; j <- p_jamming f3;; tracks <- count (p_ctj f4) n;;
   pret (MkCEmitterBeam id param fpi bdi fn density status (fst (fst (fst j))) (snd (fst (fst j))) (snd (fst j)) (snd j) tracks))%parse.
(** declared: the two indices always count *)
Definition len_ceb (x : CEmitterBeam) : Z :=
  41 + len_uvint8 (ceb_id x) + opt_len (fun a => len_uvint8 a) (ceb_kind x) + opt_len (fun a => len_uvint8 a) (ceb_category x) +
  opt_len (fun a => len_uvint8 a) (ceb_subcategory x) + opt_len (fun a => len_uvint8 a) (ceb_specific x) + zsum (map len_ctj (ceb_tracks x)).
(** written *)
Definition bits_ceb (x : CEmitterBeam) : Z :=
  31 + opt_len (fun _ => 5) (ceb_fp_index x) + opt_len (fun _ => 5) (ceb_bd_index x) + len_uvint8 (ceb_id x) + opt_len (fun a => len_uvint8 a) (ceb_kind x) + opt_len (fun a => len_uvint8 a) (ceb_category x) +
  opt_len (fun a => len_uvint8 a) (ceb_subcategory x) + opt_len (fun a => len_uvint8 a) (ceb_specific x) + zsum (map len_ctj (ceb_tracks x)).
Definition oub (n : Z) (o : option Z) : Prop := forall a, o = Some a -> ub n a.
Definition fits_CEmitterBeam x := ub 8 (ceb_id x) /\ ub 16 (ceb_param x) /\ oub 5 (ceb_fp_index x) /\ oub 5 (ceb_bd_index x) /\ ub 5 (ceb_function x) /\ ub 1 (ceb_density x) /\
  oub 8 (ceb_kind x) /\ oub 8 (ceb_category x) /\ oub 8 (ceb_subcategory x) /\ oub 8 (ceb_specific x) /\
  is_some (ceb_category x) = is_some (ceb_kind x) /\ is_some (ceb_subcategory x) = is_some (ceb_kind x) /\ is_some (ceb_specific x) = is_some (ceb_kind x) /\
  Forall fits_CTrackJam (ceb_tracks x) /\ zlen (ceb_tracks x) <= 15.
(** EmitterSystem: model.rs:86-105, parser.rs:76-112, writer.rs:59-86. The parser reads the system number, the writer does not write it. *)
Record CEmitterSystem := MkCEmitterSystem { cesy_name : option Z; cesy_function : option Z; cesy_number : Z; cesy_location : option CEntityCoordinateVector; cesy_beams : list CEmitterBeam }.
Definition cesy_details (x : CEmitterSystem) : bool := is_some (cesy_name x) && is_some (cesy_function x).
Definition w_cesy (m : mode) (x : CEmitterSystem) : BW :=
  (bput 8 1 (Z.b2z (cesy_details x));; bput 8 1 (Z.b2z (is_some (cesy_location x)));; bput 8 5 (zlen (cesy_beams x) mod 256);;
   (if cesy_details x then (w_opt (fun a => bput 16 16 a) (cesy_name x);; w_opt (fun a => bput 8 8 a) (cesy_function x);; wret tt) else wret tt);;
   w_opt (fun a => w_cecv m a) (cesy_location x);; bw_list (fun a => w_ceb m a) (cesy_beams x);; wret tt)%write.
Definition p_cesy : bitparser CEmitterSystem :=
  (f1 <- bbool;; f2 <- bbool;; n <- btake 5;; nf <- (if f1 then (a <- btake 16;; b <- btake 8;; pret (Some a, Some b)) else pret (None, None));;
   number <- p_uvint8;; loc <- p_if f2 p_cecv;; beams <- count p_ceb n;; pret (MkCEmitterSystem (fst nf) (snd nf) number loc beams))%parse.
Definition len_cesy (x : CEmitterSystem) : Z :=
  7 + opt_len (fun _ => 16) (cesy_name x) + opt_len (fun _ => 8) (cesy_function x) + len_uvint8 (cesy_number x) + opt_len len_cecv (cesy_location x) + zsum (map len_ceb (cesy_beams x)).
Definition bits_cesy (x : CEmitterSystem) : Z :=
  7 + (if cesy_details x then 24 else 0) + opt_len len_cecv (cesy_location x) + zsum (map bits_ceb (cesy_beams x)).
Definition fits_CEmitterSystem x := oub 16 (cesy_name x) /\ oub 8 (cesy_function x) /\ is_some (cesy_function x) = is_some (cesy_name x) /\ ub 8 (cesy_number x) /\
  (forall a, cesy_location x = Some a -> fits_CEntityCoordinateVector a) /\ Forall fits_CEmitterBeam (cesy_beams x) /\ zlen (cesy_beams x) <= 31.
(** ** ElectromagneticEmission: electromagnetic_emission/model.rs:12-55, parser.rs:16-48, writer.rs:7-34 *)
Record CEmission := MkCEmission { CEmission_full : bool; CEmission_id : CEntityId; CEmission_event : CEntityId; CEmission_sui : Z; CEmission_params : list CFundamentalParameter;
  CEmission_beams : list CBeamData; CEmission_sites : list CSiteApp; CEmission_systems : list CEmitterSystem }.
Definition w_cemission (m : mode) (x : CEmission) : BW :=
  (bput 8 1 (Z.b2z (CEmission_full x));; bput 64 5 (zlen (CEmission_params x));; bput 64 5 (zlen (CEmission_beams x));; bput 64 5 (zlen (CEmission_sites x));;
   w_ceid m (CEmission_id x);; w_ceid m (CEmission_event x);; bput 8 1 (CEmission_sui x);; w_uvint8 (zlen (CEmission_systems x) mod 256);;
   bw_list (fun a => w_cfp m a) (CEmission_params x);; bw_list (fun a => w_cbeam_data m a) (CEmission_beams x);; bw_list (fun a => w_csa m a) (CEmission_sites x);;
   bw_list (fun a => w_cesy m a) (CEmission_systems x);; wret tt)%write.
Definition p_cemission : bitparser CEmission :=
  (full <- bbool;; n1 <- btake 5;; n2 <- btake 5;; n3 <- btake 5;; id <- p_ceid;; event <- p_ceid;; sui <- btake 1;; n4 <- p_uvint8;;
   params <- count p_cfp n1;; beams <- count p_cbeam_data n2;; sites <- count p_csa n3;; systems <- count p_cesy n4;;
   pret (MkCEmission full id event sui params beams sites systems))%parse.
Definition len_cemission (x : CEmission) : Z :=
  18 + len_ceid (CEmission_id x) + len_ceid (CEmission_event x) + len_uvint8 (zlen (CEmission_systems x) mod 256) + zsum (map len_cfp (CEmission_params x)) +
  zsum (map len_cbeam_data (CEmission_beams x)) + zsum (map len_csa (CEmission_sites x)) + zsum (map len_cesy (CEmission_systems x)).
Definition bits_cemission (x : CEmission) : Z :=
  17 + len_ceid (CEmission_id x) + len_ceid (CEmission_event x) + len_uvint8 (zlen (CEmission_systems x) mod 256) + zsum (map len_cfp (CEmission_params x)) +
  zsum (map (fun b => len_cbeam_data (img_cbeam_data b)) (CEmission_beams x)) + zsum (map len_csa (CEmission_sites x)) + zsum (map bits_cesy (CEmission_systems x)).
Definition wfits_CEmission (x : CEmission) : Prop :=
  fits_CEntityId (CEmission_id x) /\ fits_CEntityId (CEmission_event x) /\ ub 1 (CEmission_sui x) /\ Forall fits_CFundamentalParameter (CEmission_params x) /\
  Forall fits_CBeamData (CEmission_beams x) /\ Forall fits_CSiteApp (CEmission_sites x) /\ Forall fits_CEmitterSystem (CEmission_systems x) /\
  zlen (CEmission_params x) <= 31 /\ zlen (CEmission_beams x) <= 31 /\ zlen (CEmission_sites x) <= 31 /\ zlen (CEmission_systems x) < 256.
(** what can be read back: no emitter system *)
Definition fits_CEmission (x : CEmission) : Prop := wfits_CEmission x /\ CEmission_systems x = [].
Definition img_cemission (x : CEmission) : CEmission :=
  MkCEmission (CEmission_full x) (CEmission_id x) (CEmission_event x) (CEmission_sui x) (CEmission_params x) (map img_cbeam_data (CEmission_beams x)) (CEmission_sites x) (CEmission_systems x).
Ltac lens := repeat first [apply BLen_ret | apply BLen_put; lia | apply BLen_bind | (apply BLen_opt; intros) | (eapply BLen_list; intros) ].
Ltac lenf := match goal with H : Forall _ ?l, I : In _ ?l |- _ => rewrite Forall_forall in H; pose proof (H _ I); clear I end.
Ltac lbind := eapply BLen_bind; [|].
Ltac lput := eapply BLen_bind; [apply BLen_put; lia|].
Ltac lbrt := eapply BLen_bind; [eapply BLen_of; solve [eauto 6 with brt]|].
Lemma BLen_ctj m x : fits_CTrackJam x -> BLen (w_ctj m x) (len_ctj x).
Proof.
  intros (H1 & H2 & H3 & H4). unfold w_ctj, len_ctj. eapply BLen_conv; [lput; lbrt; lbind; [|lbind; [|apply BLen_ret]]|].
  - apply BLen_opt with (len := len_uvint8). intros a Ha. eapply BLen_of. eauto with brt.
  - apply BLen_opt with (len := len_uvint8). intros a Ha. eapply BLen_of. eauto with brt.
  - change (fun a => len_uvint8 a) with len_uvint8. lia.
Qed.
Ltac lopt8 := eapply BLen_bind; [apply BLen_opt with (len := len_uvint8); intros; eapply BLen_of; apply BRT_uvint8; eauto|].
Lemma BLen_ceb m x : fits_CEmitterBeam x -> BLen (w_ceb m x) (bits_ceb x).
Proof.
  intros (H1 & H2 & H3 & H4 & H5 & H6 & H7 & H8 & H9 & H10 & _ & _ & _ & H11 & H12). unfold w_ceb, bits_ceb.
  eapply BLen_conv; [do 4 lput; lbrt; lput; do 2 (eapply BLen_bind; [apply BLen_opt with (len := fun _ => 5); intros; apply BLen_put; lia|]); do 4 lput; do 4 lopt8;
    eapply BLen_bind; [apply BLen_list with (len := len_ctj); intros; lenf; now apply BLen_ctj|apply BLen_ret]|].
  change (fun a => len_uvint8 a) with len_uvint8. lia.
Qed.
Lemma BLen_cesy m x : fits_CEmitterSystem x -> BLen (w_cesy m x) (bits_cesy x).
Proof.
  intros (H1 & H2 & H3 & H4 & H5 & H6 & H7). unfold w_cesy, bits_cesy.
  eapply BLen_conv; [do 3 lput; eapply BLen_bind with (L1 := if cesy_details x then 24 else 0);
    [|eapply BLen_bind; [apply BLen_opt with (len := len_cecv); intros; eapply BLen_of; eauto with brt|eapply BLen_bind; [apply BLen_list with (len := bits_ceb); intros; lenf; now apply BLen_ceb|apply BLen_ret]]]|lia].
  destruct (cesy_details x) eqn:E; [|apply BLen_ret]. unfold cesy_details in E. apply andb_prop in E as [E1 E2].
  destruct (cesy_name x); [|discriminate]. destruct (cesy_function x); [|discriminate]. cbn [w_opt].
  eapply BLen_conv; [do 2 lput; apply BLen_ret|reflexivity].
Qed.
Lemma BLen_cemission m x : wfits_CEmission x -> BLen (w_cemission m x) (bits_cemission x).
Proof.
  intros (H1 & H2 & H3 & H4 & H5 & H6 & H7 & H8 & H9 & H10 & H11). unfold w_cemission, bits_cemission. pose proof (zlen_nonneg (CEmission_systems x)).
  eapply BLen_conv; [do 4 lput; do 2 lbrt; lput; eapply BLen_bind; [eapply BLen_of, BRT_uvint8; unfold ub; change (2 ^ 8) with 256; apply Z.mod_pos_bound; lia|];
    eapply BLen_bind; [apply BLen_list with (len := len_cfp); intros; lenf; eapply BLen_of; eauto with brt|];
    eapply BLen_bind; [apply BLen_list with (len := fun b => len_cbeam_data (img_cbeam_data b)); intros; lenf; eapply BLen_of; eauto with brt|];
    eapply BLen_bind; [apply BLen_list with (len := len_csa); intros; lenf; eapply BLen_of; eauto with brt|];
    eapply BLen_bind; [apply BLen_list with (len := bits_cesy); intros; lenf; now apply BLen_cesy|apply BLen_ret]|lia].
Qed.
Lemma BRT_cemission m x : fits_CEmission x -> BRT (w_cemission m x) p_cemission (img_cemission x) (bits_cemission x).
Proof.
  intros ((H1 & H2 & H3 & H4 & H5 & H6 & H7 & H8 & H9 & H10 & H11) & E). unfold w_cemission, p_cemission, img_cemission, bits_cemission. destruct x as [full id event sui params beams sites systems].
  cbn [CEmission_full CEmission_id CEmission_event CEmission_sui CEmission_params CEmission_beams CEmission_sites CEmission_systems] in *. subst systems. clear H7 H11.
  rewrite Forall_forall in H4, H5, H6. pose proof (zlen_nonneg params). pose proof (zlen_nonneg beams). pose proof (zlen_nonneg sites).
  change (zlen (@nil CEmitterSystem) mod 256) with 0. change (bw_list (fun a => w_cesy m a) []) with (wret (O := bool) tt).
  eapply BRT_conv; [|reflexivity|].
  - do 8 (eapply BRT_bind; [first [apply BRT_bool | apply BRT_put; [lia|unfold ub in *; change (2 ^ 5) with 32; lia] | apply BRT_put; [lia|assumption] | apply BRT_ceid; assumption | apply BRT_uvint8; unfold ub; change (2 ^ 8) with 256; lia]|cbv beta]).
    eapply BRT_bind; [apply (BRT_list _ _ len_cfp); [reflexivity|intros; apply BRT_cfp; auto]|cbv beta].
    eapply BRT_bind; [apply (BRT_list_img _ _ img_cbeam_data (fun b => len_cbeam_data (img_cbeam_data b))); [reflexivity|intros; apply BRT_cbeam_data; auto]|cbv beta].
    eapply BRT_bind; [apply (BRT_list _ _ len_csa); [reflexivity|intros; apply BRT_csa; auto]|cbv beta].
    eapply BRT_wpure; [reflexivity|]. eapply BRT_ppure; [intros i; reflexivity|]. apply BRT_ret.
  - cbn [map]. change (zsum (@nil Z)) with 0. lia.
Qed.
Lemma BExt_ctj f : BExt (p_ctj f).
Proof. unfold p_ctj. bext. Qed.
Lemma BSafe_ctj f : BSafe (p_ctj f) (fun _ => True).
Proof. unfold p_ctj. bsafe; exact I. Qed.
Global Hint Resolve BExt_ctj : bext.
Global Hint Resolve BSafe_ctj : bsafe.
Lemma BExt_jamming f : BExt (p_jamming f).
Proof. unfold p_jamming. bext. Qed.
Lemma BSafe_jamming f : BSafe (p_jamming f) (fun _ => True).
Proof. unfold p_jamming. bsafe; exact I. Qed.
Global Hint Resolve BExt_jamming : bext.
Global Hint Resolve BSafe_jamming : bsafe.
Lemma BExt_ceb : BExt p_ceb.
Proof. unfold p_ceb. bext. Qed.
Lemma BSafe_ceb : BSafe p_ceb (fun _ => True).
Proof. unfold p_ceb. bsafe; exact I. Qed.
Global Hint Resolve BExt_ceb : bext.
Global Hint Resolve BSafe_ceb : bsafe.
Lemma BExt_cesy : BExt p_cesy.
Proof. unfold p_cesy. bext. Qed.
Lemma BSafe_cesy : BSafe p_cesy (fun _ => True).
Proof.
  unfold p_cesy. do 3 (eapply BSafe_bind; [bsafe_atom|intros]). eapply BSafe_bind with (P := fun _ => True); [bsafe; exact I|intros]. bsafe; exact I.
Qed.
Global Hint Resolve BExt_cesy : bext.
Global Hint Resolve BSafe_cesy : bsafe.
Lemma BExt_cemission : BExt p_cemission.
Proof. unfold p_cemission. bext. Qed.
Lemma BSafe_cemission : BSafe p_cemission (fun _ => True).
Proof. unfold p_cemission. bsafe; exact I. Qed.
Global Hint Resolve BRT_cemission : brt.
Global Hint Resolve BExt_cemission : bext.
Global Hint Resolve BSafe_cemission : bsafe.

(** TransmitterFrequencyFloat: transmitter/model.rs:120-178 *)
Record CTxFrequency := MkCTxFrequency { CTxFrequency_mantissa : Z; CTxFrequency_exponent : Z }.
Definition fits_CTxFrequency (x : CTxFrequency) : Prop :=
  ub 24 (CTxFrequency_mantissa x) /\ ub 4 (CTxFrequency_exponent x).
Definition w_ctf (m : mode) (x : CTxFrequency) : BW :=
  (bput 32 24 (CTxFrequency_mantissa x);; bput 8 4 (CTxFrequency_exponent x);; wret tt)%write.
Definition p_ctf : bitparser CTxFrequency :=
  (mantissa <- btake 24;; exponent <- btake 4;; pret (MkCTxFrequency mantissa exponent))%parse.
Definition len_ctf (x : CTxFrequency) : Z := 28.
Lemma BRT_ctf m x : fits_CTxFrequency x -> BRT (w_ctf m x) p_ctf x (len_ctf x).
Proof.
  destruct x. unfold fits_CTxFrequency, w_ctf, p_ctf, len_ctf. cbn -[Z.add]. intros (H0 & H1).
  brt.
Qed.
Lemma BExt_ctf : BExt p_ctf.
Proof. unfold p_ctf. bext. Qed.
Lemma BSafe_ctf : BSafe p_ctf fits_CTxFrequency.
Proof. unfold p_ctf. bsafe. unfold fits_CTxFrequency; cbn; bfin. Qed.
Global Hint Resolve BRT_ctf : brt.
Global Hint Resolve BExt_ctf : bext.
Global Hint Resolve BSafe_ctf : bsafe.

(** TransmitFrequencyBandwidthFloat: transmitter/model.rs:180-234 *)
Record CTxBandwidth := MkCTxBandwidth { CTxBandwidth_mantissa : Z; CTxBandwidth_exponent : Z }.
Definition fits_CTxBandwidth (x : CTxBandwidth) : Prop :=
  ub 17 (CTxBandwidth_mantissa x) /\ ub 4 (CTxBandwidth_exponent x).
Definition w_ctb (m : mode) (x : CTxBandwidth) : BW :=
  (bput 32 17 (CTxBandwidth_mantissa x);; bput 8 4 (CTxBandwidth_exponent x);; wret tt)%write.
Definition p_ctb : bitparser CTxBandwidth :=
  (mantissa <- btake 17;; exponent <- btake 4;; pret (MkCTxBandwidth mantissa exponent))%parse.
Definition len_ctb (x : CTxBandwidth) : Z := 21.
Lemma BRT_ctb m x : fits_CTxBandwidth x -> BRT (w_ctb m x) p_ctb x (len_ctb x).
Proof.
  destruct x. unfold fits_CTxBandwidth, w_ctb, p_ctb, len_ctb. cbn -[Z.add]. intros (H0 & H1).
  brt.
Qed.
Lemma BExt_ctb : BExt p_ctb.
Proof. unfold p_ctb. bext. Qed.
Lemma BSafe_ctb : BSafe p_ctb fits_CTxBandwidth.
Proof. unfold p_ctb. bsafe. unfold fits_CTxBandwidth; cbn; bfin. Qed.
Global Hint Resolve BRT_ctb : brt.
Global Hint Resolve BExt_ctb : bext.
Global Hint Resolve BSafe_ctb : bsafe.

(** ModulationType: transmitter/model.rs:236-242, parser.rs:57-69, writer.rs:51-57; the spread spectrum is the u16 of CdisSpreadSpectrum *)
Record CModulation := MkCModulation { CModulation_spread : Z; CModulation_major : Z; CModulation_detail : Z; CModulation_system : Z }.
Definition fits_CModulation (x : CModulation) : Prop :=
  ub 4 (CModulation_spread x) /\ ub 4 (CModulation_major x) /\ ub 4 (CModulation_detail x) /\ ub 4 (CModulation_system x).
Definition w_cmod (m : mode) (x : CModulation) : BW :=
  (bput 16 4 (CModulation_spread x);; bput 8 4 (CModulation_major x);; bput 8 4 (CModulation_detail x);; bput 8 4 (CModulation_system x);; wret tt)%write.
Definition p_cmod : bitparser CModulation :=
  (spread <- btake 4;; major <- btake 4;; detail <- btake 4;; system <- btake 4;; pret (MkCModulation spread major detail system))%parse.
Definition len_cmod (x : CModulation) : Z := 16.
Lemma BRT_cmod m x : fits_CModulation x -> BRT (w_cmod m x) p_cmod x (len_cmod x).
Proof.
  destruct x. unfold fits_CModulation, w_cmod, p_cmod, len_cmod. cbn -[Z.add]. intros (H0 & H1 & H2 & H3).
  brt.
Qed.
Lemma BExt_cmod : BExt p_cmod.
Proof. unfold p_cmod. bext. Qed.
Lemma BSafe_cmod : BSafe p_cmod fits_CModulation.
Proof. unfold p_cmod. bsafe. unfold fits_CModulation; cbn; bfin. Qed.
Global Hint Resolve BRT_cmod : brt.
Global Hint Resolve BExt_cmod : bext.
Global Hint Resolve BSafe_cmod : bsafe.

(** VariableTransmitterParameter of dis-rs: transmitter/parser.rs:127-138, writer.rs:103-113 *)
Definition w_cvtp (m : mode) (x : VTP) : BW := (bput 32 32 (vtp_type x);; bput 64 16 (zlen (vtp_fields x) + 6);; bw_list (fun a => bput 8 8 a) (vtp_fields x);; wret tt)%write.
Definition p_cvtp : bitparser VTP := (t <- btake 32;; l <- btake 16;; f <- count (btake 8) (Z.max 0 (l - 6));; pret (MkVTP t f))%parse.
Definition len_cvtp (x : VTP) : Z := 48 + 8 * zlen (vtp_fields x).
Definition fits_cVTP x := ub 32 (vtp_type x) /\ Forall (ub 8) (vtp_fields x) /\ zlen (vtp_fields x) + 6 < 65536.
Lemma BRT_cvtp m x : fits_cVTP x -> BRT (w_cvtp m x) p_cvtp x (len_cvtp x).
Proof.
  destruct x as [t f]. unfold fits_cVTP, w_cvtp, p_cvtp, len_cvtp. cbn [vtp_type vtp_fields]. intros (H1 & H2 & H3). pose proof (zlen_nonneg f). rewrite Forall_forall in H2.
  eapply BRT_conv; [eapply BRT_bind; [apply BRT_put; [lia|exact H1]|cbv beta]; eapply BRT_bind; [apply BRT_put; [lia|unfold ub; change (2 ^ 16) with 65536; lia]|cbv beta];
    eapply BRT_bind; [apply (BRT_list _ _ (fun _ => 8)); [lia|intros; apply BRT_put; auto; lia]|apply BRT_ret]|reflexivity|rewrite zsum_k; lia].
Qed.
Lemma BExt_cvtp : BExt p_cvtp.
Proof. unfold p_cvtp. bext. Qed.
Lemma BSafe_cvtp : BSafe p_cvtp (fun _ => True).
Proof. unfold p_cvtp. bsafe; exact I. Qed.
Global Hint Resolve BRT_cvtp : brt.
Global Hint Resolve BExt_cvtp : bext.
Global Hint Resolve BSafe_cvtp : bsafe.
(** octets preceded by their 8-bit number, when there are any: transmitter/parser.rs:78-87, writer.rs:68-72 *)
Definition w_octets8 (l : list Z) : BW := if nonempty l then (bput 64 8 (zlen l);; bw_list (fun a => bput 8 8 a) l)%write else wret tt.
Definition p_octets8 (fp mask : Z) : bitparser (list Z) := (n <- p_when fp mask (btake 8);; if field_present fp mask then count (btake 8) (odflt n) else pret [])%parse.
Definition octets8_bits (l : list Z) : Z := if nonempty l then 8 + 8 * zlen l else 0.
Lemma BRT_octets8 l fp mask : Forall (ub 8) l -> zlen l < 256 -> field_present fp mask = nonempty l -> BRT (w_octets8 l) (p_octets8 fp mask) l (octets8_bits l).
Proof.
  intros H1 H2 H3. unfold w_octets8, p_octets8, p_when, octets8_bits. rewrite H3. pose proof (zlen_nonneg l). rewrite Forall_forall in H1. destruct (nonempty l) eqn:E.
  - apply BRT_passoc. eapply BRT_bind; [apply BRT_put; [lia|unfold ub; change (2 ^ 8) with 256; lia]|cbv beta]. eapply BRT_ppure; [reflexivity|]. cbn [odflt]. rewrite <- (zsum_k l 8). apply BRT_list; [reflexivity|]. intros; apply BRT_put; auto; lia.
  - destruct l; [|discriminate]. eapply BRT_ppure; [reflexivity|]. apply BRT_ret.
Qed.
Lemma BExt_octets8 fp mask : BExt (p_octets8 fp mask).
Proof. unfold p_octets8. bext. Qed.
Lemma BSafe_octets8 fp mask : BSafe (p_octets8 fp mask) (fun _ => True).
Proof. unfold p_octets8. eapply BSafe_bind; [bsafe_atom|intros]. destruct (field_present fp mask); [eapply BSafe_true, BSafe_count; bsafe_atom|now apply BSafe_ret]. Qed.
Global Hint Extern 2 (BRT (w_octets8 _) (p_octets8 _ _) _ _) => apply BRT_octets8; [assumption|assumption|fp_tac] : brt.
Global Hint Resolve BExt_octets8 : bext.
Global Hint Resolve BSafe_octets8 : bsafe.

(** ** Transmitter: cdis-assemble/src/transmitter: model.rs:13-118, parser.rs:14-125, writer.rs:9-83. The parser always reads the number of variable parameters; the writer writes it only when there are some. The cryptographic key is its u16 *)
Record CTransmitter := MkCTransmitter { CTransmitter_units : (Z * Z); CTransmitter_full : bool; CTransmitter_radio : CEntityId; CTransmitter_number : Z; CTransmitter_rtype : option CEntityType; CTransmitter_state : Z; CTransmitter_source : Z; CTransmitter_antenna : option CWorldCoordinates; CTransmitter_relative : option CEntityCoordinateVector; CTransmitter_ptype : option Z; CTransmitter_frequency : option CTxFrequency; CTransmitter_bandwidth : option CTxBandwidth; CTransmitter_power : option Z; CTransmitter_modulation : option CModulation; CTransmitter_crypto : option Z; CTransmitter_key : option Z; CTransmitter_modparams : list Z; CTransmitter_pattern : option CBeamAntennaPattern; CTransmitter_vtps : list VTP }.
Definition fits_CTransmitter (x : CTransmitter) : Prop :=
  (ub 1 (fst (CTransmitter_units x)) /\ ub 1 (snd (CTransmitter_units x))) /\ fits_CEntityId (CTransmitter_radio x) /\ ub 16 (CTransmitter_number x) /\ (forall a, (CTransmitter_rtype x) = Some a -> fits_CEntityType a) /\ ub 2 (CTransmitter_state x) /\ ub 8 (CTransmitter_source x) /\ (forall a, (CTransmitter_antenna x) = Some a -> fits_CWorldCoordinates a) /\ (forall a, (CTransmitter_relative x) = Some a -> fits_CEntityCoordinateVector a) /\ (forall a, (CTransmitter_ptype x) = Some a -> ub 3 a) /\ (forall a, (CTransmitter_frequency x) = Some a -> fits_CTxFrequency a) /\ (forall a, (CTransmitter_bandwidth x) = Some a -> fits_CTxBandwidth a) /\ (forall a, (CTransmitter_power x) = Some a -> ub 8 a) /\ (forall a, (CTransmitter_modulation x) = Some a -> fits_CModulation a) /\ (forall a, (CTransmitter_crypto x) = Some a -> ub 4 a) /\ (forall a, (CTransmitter_key x) = Some a -> ub 16 a) /\ Forall (ub 8) (CTransmitter_modparams x) /\ (forall a, (CTransmitter_pattern x) = Some a -> fits_CBeamAntennaPattern a) /\ Forall (fun a => fits_cVTP a) (CTransmitter_vtps x) /\ zlen (CTransmitter_modparams x) < 256 /\ zlen (CTransmitter_vtps x) < 256 /\ is_some (CTransmitter_pattern x) = is_some (CTransmitter_ptype x) /\ is_some (CTransmitter_bandwidth x) = is_some (CTransmitter_frequency x) /\ is_some (CTransmitter_power x) = is_some (CTransmitter_frequency x) /\ is_some (CTransmitter_modulation x) = is_some (CTransmitter_frequency x) /\ is_some (CTransmitter_key x) = is_some (CTransmitter_crypto x).
Definition fields_ctransmitter (x : CTransmitter) : Z :=
  Z.lor (fbit (is_some (CTransmitter_rtype x)) 128) (Z.lor (fbit (nonempty (CTransmitter_vtps x)) 64) (Z.lor (fbit (is_some (CTransmitter_antenna x)) 32) (Z.lor (fbit (is_some (CTransmitter_relative x)) 16) (Z.lor (fbit (is_some (CTransmitter_ptype x) && is_some (CTransmitter_pattern x)) 8) (Z.lor (fbit (is_some (CTransmitter_frequency x) && is_some (CTransmitter_bandwidth x) && is_some (CTransmitter_power x) && is_some (CTransmitter_modulation x)) 4) (Z.lor (fbit (is_some (CTransmitter_crypto x) && is_some (CTransmitter_key x)) 2) (fbit (nonempty (CTransmitter_modparams x)) 1))))))).
Definition w_ctransmitter (m : mode) (x : CTransmitter) : BW :=
  (bput 8 8 (fields_ctransmitter x);; w_units2 (CTransmitter_units x);; bput 8 1 (Z.b2z (CTransmitter_full x));; w_ceid m (CTransmitter_radio x);; w_uvint16 (CTransmitter_number x);; w_opt (fun a => w_cet m a) (CTransmitter_rtype x);; bput 8 2 (CTransmitter_state x);; w_uvint8 (CTransmitter_source x);; w_cnt (CTransmitter_vtps x);; w_opt (fun a => w_cwc m a) (CTransmitter_antenna x);; w_opt (fun a => w_cecv m a) (CTransmitter_relative x);; w_opt (fun a => bput 16 3 a) (CTransmitter_ptype x);; w_opt (fun a => bput 64 10 (len_cbap a)) (CTransmitter_pattern x);; w_opt (fun a => w_ctf m a) (CTransmitter_frequency x);; w_opt (fun a => w_ctb m a) (CTransmitter_bandwidth x);; w_opt (fun a => bput 8 8 a) (CTransmitter_power x);; w_opt (fun a => w_cmod m a) (CTransmitter_modulation x);; w_opt (fun a => bput 16 4 a) (CTransmitter_crypto x);; w_opt (fun a => bput 16 16 a) (CTransmitter_key x);; w_octets8 (CTransmitter_modparams x);; w_opt (fun a => w_cbap m a) (CTransmitter_pattern x);; bw_list (fun a => w_cvtp m a) (CTransmitter_vtps x);; wret tt)%write.
Definition p_ctransmitter : bitparser CTransmitter :=
  (fp <- btake 8;; units <- p_units2;; full <- bbool;; radio <- p_ceid;; number <- p_uvint16;; rtype <- p_when fp 128 p_cet;; state <- btake 2;; source <- p_uvint8;; nvtp <- p_uvint8;; antenna <- p_when fp 32 p_cwc;; relative <- p_when fp 16 p_cecv;; ptype <- p_when fp 8 (btake 3);; _ <- p_when fp 8 (btake 10);; frequency <- p_when fp 4 p_ctf;; bandwidth <- p_when fp 4 p_ctb;; power <- p_when fp 4 (btake 8);; modulation <- p_when fp 4 p_cmod;; crypto <- p_when fp 2 (btake 4);; key <- p_when fp 2 (btake 16);; modparams <- p_octets8 fp 1;; pattern <- p_when fp 8 p_cbap;; vtps <- (if field_present fp 64 then count p_cvtp nvtp else pret []);; pret (MkCTransmitter units full radio number rtype state source antenna relative ptype frequency bandwidth power modulation crypto key modparams pattern vtps))%parse.
(** the declared body length: body_length_bits *)
Definition len_ctransmitter (x : CTransmitter) : Z := 62 + len_ceid (CTransmitter_radio x) + len_uvint16 (CTransmitter_number x) + opt_len len_cet (CTransmitter_rtype x) + len_uvint8 (CTransmitter_source x) + cnt_bits (CTransmitter_vtps x) + opt_len len_cwc (CTransmitter_antenna x) + opt_len len_cecv (CTransmitter_relative x) + opt_len (fun _ => 28) (CTransmitter_frequency x) + opt_len (fun _ => 21) (CTransmitter_bandwidth x) + opt_len (fun _ => 16) (CTransmitter_modulation x) + 8 * zlen (CTransmitter_modparams x) + opt_len len_cbap (CTransmitter_pattern x) + zsum (map len_cvtp (CTransmitter_vtps x)).
(** the bits the writer emits *)
Definition bits_ctransmitter (x : CTransmitter) : Z := 13 + len_ceid (CTransmitter_radio x) + len_uvint16 (CTransmitter_number x) + opt_len len_cet (CTransmitter_rtype x) + len_uvint8 (CTransmitter_source x) + cnt_bits (CTransmitter_vtps x) + opt_len len_cwc (CTransmitter_antenna x) + opt_len len_cecv (CTransmitter_relative x) + opt_len (fun _ => 3) (CTransmitter_ptype x) + opt_len (fun _ => 10) (CTransmitter_pattern x) + opt_len (fun _ => 28) (CTransmitter_frequency x) + opt_len (fun _ => 21) (CTransmitter_bandwidth x) + opt_len (fun _ => 8) (CTransmitter_power x) + opt_len (fun _ => 16) (CTransmitter_modulation x) + opt_len (fun _ => 4) (CTransmitter_crypto x) + opt_len (fun _ => 16) (CTransmitter_key x) + octets8_bits (CTransmitter_modparams x) + opt_len len_cbap (CTransmitter_pattern x) + zsum (map len_cvtp (CTransmitter_vtps x)).
(** what comes back from the wire *)
Definition img_ctransmitter (x : CTransmitter) : CTransmitter :=
  MkCTransmitter (CTransmitter_units x) (CTransmitter_full x) (CTransmitter_radio x) (CTransmitter_number x) (CTransmitter_rtype x) (CTransmitter_state x) (CTransmitter_source x) (option_map (fun a => img_cwc a) (CTransmitter_antenna x)) (CTransmitter_relative x) (CTransmitter_ptype x) (CTransmitter_frequency x) (CTransmitter_bandwidth x) (CTransmitter_power x) (CTransmitter_modulation x) (CTransmitter_crypto x) (CTransmitter_key x) (CTransmitter_modparams x) (CTransmitter_pattern x) (CTransmitter_vtps x).
Lemma BExt_ctransmitter : BExt p_ctransmitter.
Proof. unfold p_ctransmitter. bext. Qed.
Lemma BSafe_ctransmitter : BSafe p_ctransmitter (fun _ => True).
Proof. unfold p_ctransmitter. repeat (eapply BSafe_bind; [first [bsafe_atom|destruct (field_present _ _); [eapply BSafe_true, BSafe_count; bsafe_atom|now apply BSafe_ret]]|intros]); now apply BSafe_ret. Qed.
Global Hint Resolve BExt_ctransmitter : bext.
Global Hint Resolve BSafe_ctransmitter : bsafe.

(** A transmitter with at least one variable transmitter parameter is read back; one without never is, see [L_Cdis]. *)
Lemma BRT_discard {A B} (w : A -> BW) (p : bitparser B) (g : A -> B) len o fp mask :
  field_present fp mask = is_some o -> (forall a, o = Some a -> BRT (w a) p (g a) (len a)) -> BRT (w_opt w o) (p_when fp mask p) (option_map g o) (opt_len len o).
Proof.
  intros Hf Hx. unfold p_when. rewrite Hf. destruct o as [a|]; cbn [is_some w_opt option_map opt_len]; [|apply BRT_ret]. eapply BRT_end; [apply Hx; reflexivity|reflexivity].
Qed.
Definition tx_ok (x : CTransmitter) : Prop := nonempty (CTransmitter_vtps x) = true.
Lemma BRT_ctransmitter m x : fits_CTransmitter x -> tx_ok x -> BRT (w_ctransmitter m x) p_ctransmitter (img_ctransmitter x) (bits_ctransmitter x).
Proof.
  destruct x. unfold fits_CTransmitter, tx_ok, w_ctransmitter, p_ctransmitter, bits_ctransmitter, img_ctransmitter, fields_ctransmitter. cbn [CTransmitter_units CTransmitter_full CTransmitter_radio CTransmitter_number CTransmitter_rtype CTransmitter_state CTransmitter_source CTransmitter_antenna CTransmitter_relative CTransmitter_ptype CTransmitter_frequency CTransmitter_bandwidth CTransmitter_power CTransmitter_modulation CTransmitter_crypto CTransmitter_key CTransmitter_modparams CTransmitter_pattern CTransmitter_vtps].
  intros (H0 & H1 & H2 & H3 & H4 & H5 & H6 & H7 & H8 & H9 & H10 & H11 & H12 & H13 & H14 & H15 & H16 & H17 & H18 & H19 & H20 & H21 & H22 & H23 & H24) Hne. pose proof (zlen_nonneg CTransmitter_vtps0).
  eapply BRT_conv; [|reflexivity|].
  { eapply BRT_bind; [apply BRT_put; [lia|ub_word]|cbv beta]. do 7 brt_step.
  eapply BRT_bind with (x1 := zlen CTransmitter_vtps0) (L1 := cnt_bits CTransmitter_vtps0);
    [unfold w_cnt, cnt_bits; rewrite Hne, Z.mod_small by lia; apply BRT_uvint8; unfold ub; change (2 ^ 8) with 256; lia|cbv beta].
  do 3 brt_step.
  eapply BRT_bind; [eapply BRT_discard with (len := fun _ => 10) (g := fun a => len_cbap a); [fp_tac|intros; apply BRT_put; [lia|unfold ub, len_cbap; change (2 ^ 10) with 1024; lia]]|cbv beta].
  do 8 brt_step.
  match goal with |- BRT _ (pbind (if ?b then _ else _) _) _ _ => replace b with true by (symmetry; rewrite <- Hne; fp_tac) end.
  cbv iota. eapply BRT_bind; [apply BRT_list with (len := len_cvtp); [reflexivity|intros v Hv; rewrite Forall_forall in H17; apply BRT_cvtp, H17, Hv]|cbv beta]. apply BRT_ret. }
  unfold len_ctf, len_ctb, len_cmod. change len_cbap with (fun _ : CBeamAntennaPattern => 112).
  cbv beta delta [opt_len]. lia.
Qed.

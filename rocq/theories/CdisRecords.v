(** * C-DIS records

    Models cdis-assemble/src/records/{model,parser,writer}.rs. Each record comes with its writer [w_*], parser [p_*],
    record length [len_*] and the predicate [fits_*]: every field fits its field on the wire (narrower than the Rust type for
    most fields). A variable-length integer is modelled by its number. *)
From Coq Require Import ZArith List Lia Bool SpecFloat.
From Verif Require Export Utf8.
From Verif Require Import Base CdisBase DisCommon DisHeader.
Import ListNotations. Open Scope Z_scope.

(** ** Single-precision floats
    An f32 is its bit pattern (a u32); arithmetic is the IEEE 754 arithmetic of Coq's SpecFloat at precision 24. A NaN result is the
    canonical quiet NaN (Rust leaves the payload open). *)
Definition sf_of_bits (b : Z) : spec_float :=
  let s := 2 ^ 31 <=? b in let e := (b / 2 ^ 23) mod 256 in let k := b mod 2 ^ 23 in
  if e =? 255 then (if k =? 0 then S754_infinity s else S754_nan)
  else if e =? 0 then match k with Zpos p => S754_finite s p (-149) | _ => S754_zero s end
  else match k + 2 ^ 23 with Zpos p => S754_finite s p (e - 150) | _ => S754_nan end.
Definition bits_of_sf (f : spec_float) : Z :=
  let sg (s : bool) := if s then 2 ^ 31 else 0 in
  match f with
  | S754_zero s => sg s
  | S754_infinity s => sg s + 255 * 2 ^ 23
  | S754_nan => 2143289344
  | S754_finite s p e => sg s + (if Zpos p <? 2 ^ 23 then Zpos p else (e + 150) * 2 ^ 23 + (Zpos p - 2 ^ 23))
  end.
(** [i as f32], rounding to nearest even *)
Definition sf_of_int (z : Z) : spec_float := binary_normalize 24 128 z 0 false.
(** truncation towards zero of a finite number *)
Definition sf_trunc (s : bool) (p : positive) (e : Z) : Z :=
  let a := if 0 <=? e then Zpos p * 2 ^ e else Zpos p / 2 ^ (- e) in if s then - a else a.
(** [f as iN] / [f as uN]: truncates, saturates at the bounds of the type, NaN becomes 0 *)
Definition sf_cast (lo hi : Z) (f : spec_float) : Z :=
  match f with
  | S754_zero _ | S754_nan => 0
  | S754_infinity s => if s then lo else hi
  | S754_finite s p e => Z.max lo (Z.min hi (sf_trunc s p e))
  end.
Definition sfdiv := SFdiv 24 128.
Definition sfmul := SFmul 24 128.
(** std::f32::consts::PI *)
Definition sf_pi : spec_float := sf_of_bits 1078530011.

(** ** Header
    CdisHeader, model.rs:19-35; the protocol version as its number (CdisProtocolVersion is a bijection with u8 up to Reserved(0) and
    Reserved(1), model.rs:37-63); the timestamp is the raw u32 *)
Record CHeader := MkCHeader { ch_version : Z; ch_exercise : Z; ch_type : Z; ch_timestamp : Z; ch_length : Z; ch_status : PduStatus }.
(** what the Rust types guarantee *)
Definition wf_CHeader h := u8 (ch_version h) /\ u8 (ch_exercise h) /\ u8 (ch_type h) /\ u32 (ch_timestamp h) /\ u16 (ch_length h).
(** what the wire can carry *)
Definition fits_CHeader h := ub 2 (ch_version h) /\ ub 8 (ch_exercise h) /\ ub 8 (ch_type h) /\ ub 26 (ch_timestamp h) /\ ub 14 (ch_length h) /\
  status_ok (ch_type h) (ch_status h).
(* writer.rs:10-22 *)
Definition w_cheader (h : CHeader) : BW :=
  (bput 8 2 (ch_version h);; w_uvint8 (ch_exercise h);; bput 8 8 (ch_type h);; bput 32 26 (ch_timestamp h);; bput 16 14 (ch_length h);;
   bput 8 8 (write_status (ch_type h) (ch_status h));; wret tt)%write.
(* parser.rs:18-35 *)
Definition p_cheader : bitparser CHeader :=
  (v <- btake 2;; e <- p_uvint8;; ty <- btake 8;; ts <- btake 26;; l <- btake 14;; st <- btake 8;;
   pret (MkCHeader v e ty ts l (parse_status ty st)))%parse.
(* model.rs:30-35 *)
Definition len_cheader (h : CHeader) : Z := 58 + len_uvint8 (ch_exercise h).
Lemma BRT_cheader h : fits_CHeader h -> BRT (w_cheader h) p_cheader h (len_cheader h).
Proof.
  destruct h. unfold fits_CHeader, w_cheader, p_cheader, len_cheader. cbn -[Z.add]. intros (H1 & H2 & H3 & H4 & H5 & H6).
  assert (H7 : ub 8 (write_status ch_type0 ch_status0)).
  { pose proof (write_status_u8 ch_type0 ch_status0). unfold ub. change (2 ^ 8) with 256. assumption. }
  brt. f_equal. now apply parse_write_status.
Qed.
Lemma BExt_cheader : BExt p_cheader.
Proof. unfold p_cheader. bext. Qed.
Lemma BSafe_cheader : BSafe p_cheader fits_CHeader.
Proof.
  unfold p_cheader. bsafe. unfold fits_CHeader; cbn. bfin. apply parse_status_ok; unfold u8, ub in *; pow_hyps; lia.
Qed.
Global Hint Resolve BRT_cheader : brt.
Global Hint Resolve BExt_cheader : bext.
Global Hint Resolve BSafe_cheader : bsafe.

(** ** Vectors, identifiers, types *)

(** AngularVelocity: model.rs:207-232, writer.rs:24-33, parser.rs:37-46 *)
Record CAngularVelocity := MkCAngularVelocity { CAngularVelocity_x : Z; CAngularVelocity_y : Z; CAngularVelocity_z : Z }.
Definition fits_CAngularVelocity (x : CAngularVelocity) : Prop :=
  sb 12 (CAngularVelocity_x x) /\ sb 12 (CAngularVelocity_y x) /\ sb 12 (CAngularVelocity_z x).
Definition w_cavel (m : mode) (x : CAngularVelocity) : BW :=
  (w_svint12 m (CAngularVelocity_x x);; w_svint12 m (CAngularVelocity_y x);; w_svint12 m (CAngularVelocity_z x);; wret tt)%write.
Definition p_cavel : bitparser CAngularVelocity :=
  (x <- p_svint12;; y <- p_svint12;; z <- p_svint12;; pret (MkCAngularVelocity x y z))%parse.
Definition len_cavel (x : CAngularVelocity) : Z := len_svint12 (CAngularVelocity_x x) + len_svint12 (CAngularVelocity_y x) + len_svint12 (CAngularVelocity_z x).
Lemma BRT_cavel m x : fits_CAngularVelocity x -> BRT (w_cavel m x) p_cavel x (len_cavel x).
Proof.
  destruct x. unfold fits_CAngularVelocity, w_cavel, p_cavel, len_cavel. cbn -[Z.add]. intros (H0 & H1 & H2).
  brt.
Qed.
Lemma BExt_cavel : BExt p_cavel.
Proof. unfold p_cavel. bext. Qed.
Lemma BSafe_cavel : BSafe p_cavel fits_CAngularVelocity.
Proof. unfold p_cavel. bsafe. unfold fits_CAngularVelocity; cbn; bfin. Qed.
Global Hint Resolve BRT_cavel : brt.
Global Hint Resolve BExt_cavel : bext.
Global Hint Resolve BSafe_cavel : bsafe.

(** LinearAcceleration: model.rs:469-493, writer.rs:35-44, parser.rs:133-142 *)
Record CLinearAcceleration := MkCLinearAcceleration { CLinearAcceleration_x : Z; CLinearAcceleration_y : Z; CLinearAcceleration_z : Z }.
Definition fits_CLinearAcceleration (x : CLinearAcceleration) : Prop :=
  sb 14 (CLinearAcceleration_x x) /\ sb 14 (CLinearAcceleration_y x) /\ sb 14 (CLinearAcceleration_z x).
Definition w_clacc (m : mode) (x : CLinearAcceleration) : BW :=
  (w_svint14 m (CLinearAcceleration_x x);; w_svint14 m (CLinearAcceleration_y x);; w_svint14 m (CLinearAcceleration_z x);; wret tt)%write.
Definition p_clacc : bitparser CLinearAcceleration :=
  (x <- p_svint14;; y <- p_svint14;; z <- p_svint14;; pret (MkCLinearAcceleration x y z))%parse.
Definition len_clacc (x : CLinearAcceleration) : Z := len_svint14 (CLinearAcceleration_x x) + len_svint14 (CLinearAcceleration_y x) + len_svint14 (CLinearAcceleration_z x).
Lemma BRT_clacc m x : fits_CLinearAcceleration x -> BRT (w_clacc m x) p_clacc x (len_clacc x).
Proof.
  destruct x. unfold fits_CLinearAcceleration, w_clacc, p_clacc, len_clacc. cbn -[Z.add]. intros (H0 & H1 & H2).
  brt.
Qed.
Lemma BExt_clacc : BExt p_clacc.
Proof. unfold p_clacc. bext. Qed.
Lemma BSafe_clacc : BSafe p_clacc fits_CLinearAcceleration.
Proof. unfold p_clacc. bsafe. unfold fits_CLinearAcceleration; cbn; bfin. Qed.
Global Hint Resolve BRT_clacc : brt.
Global Hint Resolve BExt_clacc : bext.
Global Hint Resolve BSafe_clacc : bsafe.

(** LinearVelocity: model.rs:495-519, writer.rs:84-93, parser.rs:122-131 *)
Record CLinearVelocity := MkCLinearVelocity { CLinearVelocity_x : Z; CLinearVelocity_y : Z; CLinearVelocity_z : Z }.
Definition fits_CLinearVelocity (x : CLinearVelocity) : Prop :=
  sb 16 (CLinearVelocity_x x) /\ sb 16 (CLinearVelocity_y x) /\ sb 16 (CLinearVelocity_z x).
Definition w_clvel (m : mode) (x : CLinearVelocity) : BW :=
  (w_svint16 m (CLinearVelocity_x x);; w_svint16 m (CLinearVelocity_y x);; w_svint16 m (CLinearVelocity_z x);; wret tt)%write.
Definition p_clvel : bitparser CLinearVelocity :=
  (x <- p_svint16;; y <- p_svint16;; z <- p_svint16;; pret (MkCLinearVelocity x y z))%parse.
Definition len_clvel (x : CLinearVelocity) : Z := len_svint16 (CLinearVelocity_x x) + len_svint16 (CLinearVelocity_y x) + len_svint16 (CLinearVelocity_z x).
Lemma BRT_clvel m x : fits_CLinearVelocity x -> BRT (w_clvel m x) p_clvel x (len_clvel x).
Proof.
  destruct x. unfold fits_CLinearVelocity, w_clvel, p_clvel, len_clvel. cbn -[Z.add]. intros (H0 & H1 & H2).
  brt.
Qed.
Lemma BExt_clvel : BExt p_clvel.
Proof. unfold p_clvel. bext. Qed.
Lemma BSafe_clvel : BSafe p_clvel fits_CLinearVelocity.
Proof. unfold p_clvel. bsafe. unfold fits_CLinearVelocity; cbn; bfin. Qed.
Global Hint Resolve BRT_clvel : brt.
Global Hint Resolve BExt_clvel : bext.
Global Hint Resolve BSafe_clvel : bsafe.

(** EntityCoordinateVector: model.rs:334-358, writer.rs:46-55, parser.rs:48-57 *)
Record CEntityCoordinateVector := MkCEntityCoordinateVector { CEntityCoordinateVector_x : Z; CEntityCoordinateVector_y : Z; CEntityCoordinateVector_z : Z }.
Definition fits_CEntityCoordinateVector (x : CEntityCoordinateVector) : Prop :=
  sb 16 (CEntityCoordinateVector_x x) /\ sb 16 (CEntityCoordinateVector_y x) /\ sb 16 (CEntityCoordinateVector_z x).
Definition w_cecv (m : mode) (x : CEntityCoordinateVector) : BW :=
  (w_svint16 m (CEntityCoordinateVector_x x);; w_svint16 m (CEntityCoordinateVector_y x);; w_svint16 m (CEntityCoordinateVector_z x);; wret tt)%write.
Definition p_cecv : bitparser CEntityCoordinateVector :=
  (x <- p_svint16;; y <- p_svint16;; z <- p_svint16;; pret (MkCEntityCoordinateVector x y z))%parse.
Definition len_cecv (x : CEntityCoordinateVector) : Z := len_svint16 (CEntityCoordinateVector_x x) + len_svint16 (CEntityCoordinateVector_y x) + len_svint16 (CEntityCoordinateVector_z x).
Lemma BRT_cecv m x : fits_CEntityCoordinateVector x -> BRT (w_cecv m x) p_cecv x (len_cecv x).
Proof.
  destruct x. unfold fits_CEntityCoordinateVector, w_cecv, p_cecv, len_cecv. cbn -[Z.add]. intros (H0 & H1 & H2).
  brt.
Qed.
Lemma BExt_cecv : BExt p_cecv.
Proof. unfold p_cecv. bext. Qed.
Lemma BSafe_cecv : BSafe p_cecv fits_CEntityCoordinateVector.
Proof. unfold p_cecv. bsafe. unfold fits_CEntityCoordinateVector; cbn; bfin. Qed.
Global Hint Resolve BRT_cecv : brt.
Global Hint Resolve BExt_cecv : bext.
Global Hint Resolve BSafe_cecv : bsafe.

(** EntityId: model.rs:360-416, writer.rs:57-66, parser.rs:59-68 *)
Record CEntityId := MkCEntityId { CEntityId_site : Z; CEntityId_app : Z; CEntityId_entity : Z }.
Definition fits_CEntityId (x : CEntityId) : Prop :=
  ub 16 (CEntityId_site x) /\ ub 16 (CEntityId_app x) /\ ub 16 (CEntityId_entity x).
Definition w_ceid (m : mode) (x : CEntityId) : BW :=
  (w_uvint16 (CEntityId_site x);; w_uvint16 (CEntityId_app x);; w_uvint16 (CEntityId_entity x);; wret tt)%write.
Definition p_ceid : bitparser CEntityId :=
  (site <- p_uvint16;; app <- p_uvint16;; entity <- p_uvint16;; pret (MkCEntityId site app entity))%parse.
Definition len_ceid (x : CEntityId) : Z := len_uvint16 (CEntityId_site x) + len_uvint16 (CEntityId_app x) + len_uvint16 (CEntityId_entity x).
Lemma BRT_ceid m x : fits_CEntityId x -> BRT (w_ceid m x) p_ceid x (len_ceid x).
Proof.
  destruct x. unfold fits_CEntityId, w_ceid, p_ceid, len_ceid. cbn -[Z.add]. intros (H0 & H1 & H2).
  brt.
Qed.
Lemma BExt_ceid : BExt p_ceid.
Proof. unfold p_ceid. bext. Qed.
Lemma BSafe_ceid : BSafe p_ceid fits_CEntityId.
Proof. unfold p_ceid. bsafe. unfold fits_CEntityId; cbn; bfin. Qed.
Global Hint Resolve BRT_ceid : brt.
Global Hint Resolve BExt_ceid : bext.
Global Hint Resolve BSafe_ceid : bsafe.

(* entity_identification_uncompressed, parser.rs:70-79 *)
Definition p_ceid_unc : bitparser CEntityId := (s <- btake 16;; a <- btake 16;; e <- btake 16;; pret (MkCEntityId s a e))%parse.
Lemma BExt_ceid_unc : BExt p_ceid_unc.
Proof. unfold p_ceid_unc. bext. Qed.
Lemma BSafe_ceid_unc : BSafe p_ceid_unc fits_CEntityId.
Proof. unfold p_ceid_unc. bsafe. unfold fits_CEntityId; cbn; bfin. Qed.
Global Hint Resolve BExt_ceid_unc : bext.
Global Hint Resolve BSafe_ceid_unc : bsafe.

(** EntityType: model.rs:418-453, writer.rs:68-82, parser.rs:81-98 *)
Record CEntityType := MkCEntityType { CEntityType_kind : Z; CEntityType_domain : Z; CEntityType_country : Z; CEntityType_category : Z; CEntityType_subcategory : Z; CEntityType_specific : Z; CEntityType_extra : Z }.
Definition fits_CEntityType (x : CEntityType) : Prop :=
  ub 4 (CEntityType_kind x) /\ ub 4 (CEntityType_domain x) /\ ub 9 (CEntityType_country x) /\ ub 8 (CEntityType_category x) /\ ub 8 (CEntityType_subcategory x) /\ ub 8 (CEntityType_specific x) /\ ub 8 (CEntityType_extra x).
Definition w_cet (m : mode) (x : CEntityType) : BW :=
  (bput 8 4 (CEntityType_kind x);; bput 8 4 (CEntityType_domain x);; bput 16 9 (CEntityType_country x);; w_uvint8 (CEntityType_category x);; w_uvint8 (CEntityType_subcategory x);; w_uvint8 (CEntityType_specific x);; w_uvint8 (CEntityType_extra x);; wret tt)%write.
Definition p_cet : bitparser CEntityType :=
  (kind <- btake 4;; domain <- btake 4;; country <- btake 9;; category <- p_uvint8;; subcategory <- p_uvint8;; specific <- p_uvint8;; extra <- p_uvint8;; pret (MkCEntityType kind domain country category subcategory specific extra))%parse.
Definition len_cet (x : CEntityType) : Z := 17 + len_uvint8 (CEntityType_category x) + len_uvint8 (CEntityType_subcategory x) + len_uvint8 (CEntityType_specific x) + len_uvint8 (CEntityType_extra x).
Lemma BRT_cet m x : fits_CEntityType x -> BRT (w_cet m x) p_cet x (len_cet x).
Proof.
  destruct x. unfold fits_CEntityType, w_cet, p_cet, len_cet. cbn -[Z.add]. intros (H0 & H1 & H2 & H3 & H4 & H5 & H6).
  brt.
Qed.
Lemma BExt_cet : BExt p_cet.
Proof. unfold p_cet. bext. Qed.
Lemma BSafe_cet : BSafe p_cet fits_CEntityType.
Proof. unfold p_cet. bsafe. unfold fits_CEntityType; cbn; bfin. Qed.
Global Hint Resolve BRT_cet : brt.
Global Hint Resolve BExt_cet : bext.
Global Hint Resolve BSafe_cet : bsafe.

(* entity_type_uncompressed, parser.rs:100-120: the fields keep their uncompressed width *)
Definition wf_CEntityType x := ub 8 (CEntityType_kind x) /\ ub 8 (CEntityType_domain x) /\ ub 16 (CEntityType_country x) /\ ub 8 (CEntityType_category x) /\
  ub 8 (CEntityType_subcategory x) /\ ub 8 (CEntityType_specific x) /\ ub 8 (CEntityType_extra x).
Definition p_cet_unc : bitparser CEntityType :=
  (k <- btake 8;; d <- btake 8;; c <- btake 16;; ca <- btake 8;; su <- btake 8;; sp <- btake 8;; ex <- btake 8;; pret (MkCEntityType k d c ca su sp ex))%parse.
Lemma BExt_cet_unc : BExt p_cet_unc.
Proof. unfold p_cet_unc. bext. Qed.
Lemma BSafe_cet_unc : BSafe p_cet_unc wf_CEntityType.
Proof. unfold p_cet_unc. bsafe. unfold wf_CEntityType; cbn; bfin. Qed.
Global Hint Resolve BExt_cet_unc : bext.
Global Hint Resolve BSafe_cet_unc : bsafe.

(** Orientation: model.rs:521-543, writer.rs:106-115, parser.rs:144-153; i16 fields *)
Record COrientation := MkCOrientation { COrientation_psi : Z; COrientation_theta : Z; COrientation_phi : Z }.
Definition fits_COrientation (x : COrientation) : Prop :=
  sb 13 (COrientation_psi x) /\ sb 13 (COrientation_theta x) /\ sb 13 (COrientation_phi x).
Definition w_corient (m : mode) (x : COrientation) : BW :=
  (bput_s m 16 13 (COrientation_psi x);; bput_s m 16 13 (COrientation_theta x);; bput_s m 16 13 (COrientation_phi x);; wret tt)%write.
Definition p_corient : bitparser COrientation :=
  (psi <- btake_s 13;; theta <- btake_s 13;; phi <- btake_s 13;; pret (MkCOrientation psi theta phi))%parse.
Definition len_corient (x : COrientation) : Z := 39.
Lemma BRT_corient m x : fits_COrientation x -> BRT (w_corient m x) p_corient x (len_corient x).
Proof.
  destruct x. unfold fits_COrientation, w_corient, p_corient, len_corient. cbn -[Z.add]. intros (H0 & H1 & H2).
  brt.
Qed.
Lemma BExt_corient : BExt p_corient.
Proof. unfold p_corient. bext. Qed.
Lemma BSafe_corient : BSafe p_corient fits_COrientation.
Proof. unfold p_corient. bsafe. unfold fits_COrientation; cbn; bfin. Qed.
Global Hint Resolve BRT_corient : brt.
Global Hint Resolve BExt_corient : bext.
Global Hint Resolve BSafe_corient : bsafe.

(** LayerHeader: model.rs:455-467, serialize_with_length in writer.rs:347-353, layer_header in parser.rs:561-570. The length written is computed
    from the layer, as a usize. *)
Record CLayerHeader := MkCLayerHeader { clh_number : Z; clh_info : Z; clh_length : Z }.
Definition w_clayer_header (body_length : Z) (x : CLayerHeader) : BW :=
  (bput 8 4 (clh_number x);; bput 8 8 (clh_info x);; bput 64 14 (26 + body_length);; wret tt)%write.
Definition p_clayer_header : bitparser CLayerHeader := (n <- btake 4;; i <- btake 8;; l <- btake 14;; pret (MkCLayerHeader n i l))%parse.
Definition len_clayer_header (x : CLayerHeader) : Z := 26.
Definition fits_CLayerHeader x := ub 4 (clh_number x) /\ ub 8 (clh_info x) /\ ub 14 (clh_length x).
Lemma BRT_clayer_header bl x : fits_CLayerHeader x -> clh_length x = 26 + bl -> BRT (w_clayer_header bl x) p_clayer_header x 26.
Proof.
  destruct x. unfold fits_CLayerHeader, w_clayer_header, p_clayer_header. cbn -[Z.add]. intros (H1 & H2 & H3) ->. brt.
Qed.
Lemma BExt_clayer_header : BExt p_clayer_header.
Proof. unfold p_clayer_header. bext. Qed.
Lemma BSafe_clayer_header : BSafe p_clayer_header fits_CLayerHeader.
Proof. unfold p_clayer_header. bsafe. unfold fits_CLayerHeader; cbn; bfin. Qed.
Global Hint Resolve BExt_clayer_header : bext.
Global Hint Resolve BSafe_clayer_header : bsafe.

(** BeamData: model.rs:255-274, writer.rs:332-343, parser.rs:545-559. The writer stores the azimuth centre four times. *)
Record CBeamData := MkCBeamData { cbd_az_center : Z; cbd_az_sweep : Z; cbd_el_center : Z; cbd_el_sweep : Z; cbd_sync : Z }.
Definition fits_CBeamData x := sb 13 (cbd_az_center x) /\ sb 13 (cbd_az_sweep x) /\ sb 13 (cbd_el_center x) /\ sb 13 (cbd_el_sweep x) /\ ub 10 (cbd_sync x).
Definition w_cbeam_data (m : mode) (x : CBeamData) : BW :=
  (w_svint13 m (cbd_az_center x);; w_svint13 m (cbd_az_center x);; w_svint13 m (cbd_az_center x);; w_svint13 m (cbd_az_center x);;
   bput 16 10 (cbd_sync x);; wret tt)%write.
Definition p_cbeam_data : bitparser CBeamData :=
  (a <- p_svint13;; b <- p_svint13;; c <- p_svint13;; d <- p_svint13;; s <- btake 10;; pret (MkCBeamData a b c d s))%parse.
Definition len_cbeam_data (x : CBeamData) : Z :=
  10 + len_svint13 (cbd_az_center x) + len_svint13 (cbd_az_sweep x) + len_svint13 (cbd_el_center x) + len_svint13 (cbd_el_sweep x).
(** what comes back, and the number of bits that are written *)
Definition img_cbeam_data (x : CBeamData) : CBeamData :=
  MkCBeamData (cbd_az_center x) (cbd_az_center x) (cbd_az_center x) (cbd_az_center x) (cbd_sync x).
Lemma BRT_cbeam_data m x : fits_CBeamData x -> BRT (w_cbeam_data m x) p_cbeam_data (img_cbeam_data x) (len_cbeam_data (img_cbeam_data x)).
Proof. destruct x. unfold fits_CBeamData, w_cbeam_data, p_cbeam_data, img_cbeam_data, len_cbeam_data. cbn -[Z.add]. intros (H1 & H2 & H3 & H4 & H5). brt. Qed.
Lemma BExt_cbeam_data : BExt p_cbeam_data.
Proof. unfold p_cbeam_data. bext. Qed.
Lemma BSafe_cbeam_data : BSafe p_cbeam_data fits_CBeamData.
Proof. unfold p_cbeam_data. bsafe. unfold fits_CBeamData; cbn; bfin. Qed.
Global Hint Resolve BRT_cbeam_data : brt.
Global Hint Resolve BExt_cbeam_data : bext.
Global Hint Resolve BSafe_cbeam_data : bsafe.

(** BeamAntennaPattern: model.rs:234-253, beam_antenna_pattern in parser.rs:499-522; the writer is in transmitter/writer.rs *)
Record CBeamAntennaPattern := MkCBeamAntennaPattern { CBeamAntennaPattern_psi : Z; CBeamAntennaPattern_theta : Z; CBeamAntennaPattern_phi : Z; CBeamAntennaPattern_az : Z; CBeamAntennaPattern_el : Z; CBeamAntennaPattern_ref : Z; CBeamAntennaPattern_e_z : Z; CBeamAntennaPattern_e_x : Z; CBeamAntennaPattern_phase : Z }.
Definition fits_CBeamAntennaPattern (x : CBeamAntennaPattern) : Prop :=
  sb 13 (CBeamAntennaPattern_psi x) /\ sb 13 (CBeamAntennaPattern_theta x) /\ sb 13 (CBeamAntennaPattern_phi x) /\ sb 13 (CBeamAntennaPattern_az x) /\ sb 13 (CBeamAntennaPattern_el x) /\ ub 2 (CBeamAntennaPattern_ref x) /\ sb 16 (CBeamAntennaPattern_e_z x) /\ sb 16 (CBeamAntennaPattern_e_x x) /\ sb 13 (CBeamAntennaPattern_phase x).
Definition w_cbap (m : mode) (x : CBeamAntennaPattern) : BW :=
  (bput_s m 16 13 (CBeamAntennaPattern_psi x);; bput_s m 16 13 (CBeamAntennaPattern_theta x);; bput_s m 16 13 (CBeamAntennaPattern_phi x);; bput_s m 16 13 (CBeamAntennaPattern_az x);; bput_s m 16 13 (CBeamAntennaPattern_el x);; bput 8 2 (CBeamAntennaPattern_ref x);; bput_s m 16 16 (CBeamAntennaPattern_e_z x);; bput_s m 16 16 (CBeamAntennaPattern_e_x x);; bput_s m 16 13 (CBeamAntennaPattern_phase x);; wret tt)%write.
Definition p_cbap : bitparser CBeamAntennaPattern :=
  (psi <- btake_s 13;; theta <- btake_s 13;; phi <- btake_s 13;; az <- btake_s 13;; el <- btake_s 13;; ref <- btake 2;; e_z <- btake_s 16;; e_x <- btake_s 16;; phase <- btake_s 13;; pret (MkCBeamAntennaPattern psi theta phi az el ref e_z e_x phase))%parse.
Definition len_cbap (x : CBeamAntennaPattern) : Z := 112.
Lemma BRT_cbap m x : fits_CBeamAntennaPattern x -> BRT (w_cbap m x) p_cbap x (len_cbap x).
Proof.
  destruct x. unfold fits_CBeamAntennaPattern, w_cbap, p_cbap, len_cbap. cbn -[Z.add]. intros (H0 & H1 & H2 & H3 & H4 & H5 & H6 & H7 & H8).
  brt.
Qed.
Lemma BExt_cbap : BExt p_cbap.
Proof. unfold p_cbap. bext. Qed.
Lemma BSafe_cbap : BSafe p_cbap fits_CBeamAntennaPattern.
Proof. unfold p_cbap. bsafe. unfold fits_CBeamAntennaPattern; cbn; bfin. Qed.
Global Hint Resolve BRT_cbap : brt.
Global Hint Resolve BExt_cbap : bext.
Global Hint Resolve BSafe_cbap : bsafe.

(** ** World coordinates: model.rs:947-996, writer.rs:95-104, parser.rs:166-181
    Latitude and longitude are f32. The writer stores their integer parts; the parser divides by a scale whose constant reads
    [(2^30) - 1], which in Rust is the exclusive or 28, minus one. *)
Record CWorldCoordinates := MkCWorldCoordinates { cwc_lat : Z; cwc_lon : Z; cwc_alt : Z }.
Definition lat_scale : spec_float := sfdiv (sf_of_int (Z.lxor 2 30 - 1)) (sfdiv sf_pi (sf_of_int 2)).
Definition lon_scale : spec_float := sfdiv (sf_of_int (Z.lxor 2 31 - 1)) sf_pi.
Definition f32_as_i32 (b : Z) : Z := sf_cast (- 2 ^ 31) (2 ^ 31 - 1) (sf_of_bits b).
Definition w_cwc (m : mode) (x : CWorldCoordinates) : BW :=
  (bput_s m 32 31 (f32_as_i32 (cwc_lat x));; bput_s m 32 32 (f32_as_i32 (cwc_lon x));; w_svint24 m (cwc_alt x);; wret tt)%write.
Definition lat_of_int (z : Z) : Z := bits_of_sf (sfdiv (sf_of_int z) lat_scale).
Definition lon_of_int (z : Z) : Z := bits_of_sf (sfdiv (sf_of_int z) lon_scale).
Definition p_cwc : bitparser CWorldCoordinates :=
  (la <- btake_s 31;; lo <- btake_s 32;; al <- p_svint24;; pret (MkCWorldCoordinates (lat_of_int la) (lon_of_int lo) al))%parse.
Definition len_cwc (x : CWorldCoordinates) : Z := 63 + len_svint24 (cwc_alt x).
(** the integer part of the latitude fits 31 bits (and is not the least such number) *)
Definition fits_CWorldCoordinates x := u32 (cwc_lat x) /\ u32 (cwc_lon x) /\ sb 24 (cwc_alt x) /\ - 2 ^ 30 < f32_as_i32 (cwc_lat x) < 2 ^ 30.
Definition img_cwc (x : CWorldCoordinates) : CWorldCoordinates :=
  MkCWorldCoordinates (lat_of_int (f32_as_i32 (cwc_lat x))) (lon_of_int (f32_as_i32 (cwc_lon x))) (img24 (cwc_alt x)).
Lemma sf_cast_range lo hi f : lo <= 0 <= hi -> lo <= sf_cast lo hi f <= hi.
Proof. intros H. destruct f as [|[]| |]; cbn [sf_cast]; lia. Qed.
Lemma BRT_cwc m x : fits_CWorldCoordinates x -> BRT (w_cwc m x) p_cwc (img_cwc x) (len_cwc x).
Proof.
  intros (H1 & H2 & H3 & H4). unfold w_cwc, p_cwc, len_cwc, img_cwc.
  assert (H5 : sb 31 (f32_as_i32 (cwc_lat x))) by (unfold sb; pow_tac; change (2 ^ 30) with 1073741824 in *; lia).
  assert (H6 : sb 32 (f32_as_i32 (cwc_lon x))).
  { unfold sb, f32_as_i32. pose proof (sf_cast_range (- 2 ^ 31) (2 ^ 31 - 1) (sf_of_bits (cwc_lon x)) ltac:(split; [vm_compute; discriminate|vm_compute; discriminate])) as E.
    change (2 ^ 31) with 2147483648 in *. change (2 ^ (32 - 1)) with 2147483648. lia. }
  eapply BRT_conv; [eapply BRT_bind; [apply BRT_put_s; [lia|right; right; split; [exact (proj1 H4)|reflexivity]|exact H5]|cbv beta; repeat brt_step]|reflexivity|lia].
Qed.
Lemma BExt_cwc : BExt p_cwc.
Proof. unfold p_cwc. bext. Qed.
Lemma BSafe_cwc : BSafe p_cwc (fun _ => True).
Proof. unfold p_cwc. bsafe. exact I. Qed.
Global Hint Resolve BRT_cwc : brt.
Global Hint Resolve BExt_cwc : bext.
Global Hint Resolve BSafe_cwc : bsafe.

(** ** Entity marking: model.rs:627-945, writer.rs:117-131, parser.rs:155-164
    A string is the list of its Unicode scalar values; its byte length is that of UTF-8. [cm_six] is CdisMarkingCharEncoding. *)
Record CMarking := MkCMarking { cm_six : bool; cm_chars : list Z }.
(* the two code tables, model.rs:729-830 (decoding) and 832-943 (encoding). The five-bit tables differ at code 21: it decodes to 'Y' and is the code of 'X'. *)
Definition dec5_table : list Z := [0; 65; 66; 67; 68; 69; 70; 71; 72; 73; 76; 77; 78; 79; 80; 82; 83; 84; 85; 86; 87; 89; 48; 49; 50; 51; 52; 53; 54; 55; 56; 57].
Definition enc5_table : list Z := [0; 65; 66; 67; 68; 69; 70; 71; 72; 73; 76; 77; 78; 79; 80; 82; 83; 84; 85; 86; 87; 88; 48; 49; 50; 51; 52; 53; 54; 55; 56; 57].
Definition six_table : list Z := [0; 65; 66; 67; 68; 69; 70; 71; 72; 73; 74; 75; 76; 77; 78; 79; 80; 81; 82; 83; 84; 85; 86; 87; 88; 89; 90; 46; 63; 33; 48; 49; 50; 51; 52; 53; 54; 55; 56; 57; 32; 91; 93; 40; 41; 123; 125; 43; 45; 95; 64; 38; 34; 39; 58; 59; 44; 126; 92; 47; 37; 35; 36; 42].
Definition char_from_code (six : bool) (code : Z) : Z := nth (Z.to_nat code) (if six then six_table else dec5_table) 42.
Fixpoint index_of (c : Z) (l : list Z) (i : Z) : option Z :=
  match l with [] => None | x :: t => if x =? c then Some i else index_of c t (i + 1) end.
Definition code_from_char (six : bool) (c : Z) : Z := match index_of c (if six then six_table else enc5_table) 0 with Some i => i | None => 63 end.
Definition char_bits (six : bool) : Z := if six then 6 else 5.
(* check_char_encoding, model.rs:649-663 *)
Definition is_ascii_alnum (c : Z) : bool := in_rng 48 57 c || in_rng 65 90 c || in_rng 97 122 c.
Definition five_bit_ok (s : list Z) : bool :=
  forallb is_ascii_alnum (filter (fun c => negb (c =? 0)) s) && negb (existsb (fun c => existsb (Z.eqb c) [74; 75; 81; 88; 90]) s).
(* CdisEntityMarking::new, model.rs:634-647: String::truncate(11) panics (None) when 11 is not a character boundary *)
Fixpoint truncate (n : Z) (s : list Z) : option (list Z) :=
  if n =? 0 then Some [] else
  match s with
  | [] => Some []
  | c :: t => if n <? utf8_width c then None else match truncate (n - utf8_width c) t with Some r => Some (c :: r) | None => None end
  end.
Definition cmarking_new (s : list Z) : option CMarking :=
  match (if 11 <? str_len s then truncate 11 s else Some s) with
  | Some r => Some (MkCMarking (negb (five_bit_ok r)) r)
  | None => None
  end.
Definition w_cmarking (m : mode) (x : CMarking) : BW :=
  (bput 64 4 (str_len (cm_chars x));; bput 8 1 (if cm_six x then 1 else 0);;
   bw_list (fun c => bput 8 (char_bits (cm_six x)) (code_from_char (cm_six x) c)) (cm_chars x);; wret tt)%write.
Definition p_cmarking : bitparser CMarking :=
  (n <- btake 4;; e <- btake 1;; cs <- count (btake (char_bits (negb (e =? 0)))) n;;
   pret (MkCMarking (negb (e =? 0)) (map (char_from_code (negb (e =? 0))) cs)))%parse.
Definition len_cmarking (x : CMarking) : Z := 5 + str_len (cm_chars x) * char_bits (cm_six x).
(** every character has a code that decodes to it *)
Definition codable (six : bool) (c : Z) : Prop := In c (if six then six_table else dec5_table) /\ (six = false -> c <> 89).
Definition fits_CMarking x := zlen (cm_chars x) <= 15 /\ Forall (codable (cm_six x)) (cm_chars x).
Lemma index_of_code six c : codable six c ->
  utf8_width c = 1 /\ ub (char_bits six) (code_from_char six c) /\ char_from_code six (code_from_char six c) = c.
Proof.
  intros [H Hn]. unfold ub, char_bits. destruct six.
  - clear Hn. cbn [In six_table] in H. repeat (destruct H as [<-|H]; [vm_compute; repeat split; discriminate|]). destruct H.
  - specialize (Hn eq_refl). cbn [In dec5_table] in H. repeat (destruct H as [<-|H]; [try (exfalso; apply Hn; reflexivity); vm_compute; repeat split; discriminate|]). destruct H.
Qed.
Lemma str_len_codable six s : Forall (codable six) s -> str_len s = zlen s.
Proof.
  unfold str_len. induction 1 as [|c s Hc Hs IH]; [reflexivity|]. cbn [map zsum]. rewrite IH, zlen_cons.
  destruct (index_of_code _ _ Hc) as [-> _]. lia.
Qed.
Lemma zsum_k {A} (l : list A) k : zsum (map (fun _ => k) l) = k * zlen l.
Proof. induction l as [|a l IH]; cbn [map zsum]; [change (zlen (@nil A)) with 0; lia|]. rewrite IH, zlen_cons. lia. Qed.
Lemma bw_list_map {A B} (f : A -> B) (w : B -> BW) l : bw_list (fun a => w (f a)) l = bw_list w (map f l).
Proof. induction l as [|a l IH]; cbn; [reflexivity|]. unfold wbind. destruct (w (f a)); [|reflexivity]. now rewrite IH. Qed.
Lemma BRT_cmarking m x : fits_CMarking x -> BRT (w_cmarking m x) p_cmarking x (len_cmarking x).
Proof.
  destruct x as [six s]. unfold fits_CMarking, w_cmarking, p_cmarking, len_cmarking. cbn [cm_six cm_chars]. intros [Hl Hs].
  rewrite (str_len_codable six s Hs). pose proof (zlen_nonneg s).
  eapply BRT_conv with (L := 4 + (1 + (char_bits six * zlen s + 0))); [|reflexivity|lia].
  eapply BRT_bind; [apply BRT_put; [lia|unfold ub; change (2 ^ 4) with 16; lia]|]. cbv beta.
  eapply BRT_bind; [apply (BRT_put 8 1); [lia|unfold ub; change (2 ^ 1) with 2; destruct six; lia]|]. cbv beta.
  replace (char_bits six * zlen s) with (zsum (map (fun _ => char_bits six) (map (code_from_char six) s))) by (rewrite zsum_k; unfold zlen; now rewrite map_length).
  - replace (negb ((if six then 1 else 0) =? 0)) with six by (destruct six; reflexivity).
    rewrite (bw_list_map (code_from_char six) (fun c => bput 8 (char_bits six) c)).
    eapply BRT_bind.
    + eapply (BRT_list (fun c => bput 8 (char_bits six) c) (btake (char_bits six)) (fun _ => char_bits six)).
      * unfold zlen. now rewrite map_length.
      * intros c Hc. apply in_map_iff in Hc. destruct Hc as (c' & <- & Hc'). rewrite Forall_forall in Hs.
        destruct (index_of_code _ _ (Hs c' Hc')) as (_ & Hu & _). apply BRT_put; [unfold char_bits; destruct six; lia|exact Hu].
    + cbv beta. rewrite map_map. rewrite (map_ext_in (fun c => char_from_code six (code_from_char six c)) (fun c => c)), map_id.
      * apply BRT_ret.
      * intros c Hc. rewrite Forall_forall in Hs. apply (index_of_code _ _ (Hs c Hc)).
Qed.
Lemma BExt_cmarking : BExt p_cmarking.
Proof. unfold p_cmarking. bext. Qed.
Lemma BSafe_cmarking : BSafe p_cmarking (fun x => zlen (cm_chars x) <= 15).
Proof.
  unfold p_cmarking. eapply BSafe_bind; [bsafe_atom|]. intros n Hn. eapply BSafe_bind; [bsafe_atom|]. intros e He. cbv beta.
  eapply BSafe_bind; [eapply BSafe_count; apply BSafe_take; unfold char_bits; destruct (negb (e =? 0)); lia|]. intros cs [_ Hc]. apply BSafe_ret.
  cbn [cm_chars]. unfold zlen in *. rewrite map_length. unfold ub in Hn. change (2 ^ 4) with 16 in Hn. lia.
Qed.
Global Hint Resolve BRT_cmarking : brt.
Global Hint Resolve BExt_cmarking : bext.
Global Hint Resolve BSafe_cmarking : bsafe.

(** ** Floating-point numbers with a decimal exponent *)
(** ParameterValueFloat, model.rs:998-1066; [cpv_raw] is the uncompressed f32, written as it is when present *)
Record CParameterValue := MkCParameterValue { cpv_mantissa : Z; cpv_exponent : Z; cpv_raw : option Z }.
Definition w_cpv (m : mode) (x : CParameterValue) : BW :=
  match cpv_raw x with
  | Some f => (bput 32 32 f;; wret tt)%write
  | None => (bput_s m 32 15 (cpv_mantissa x);; bput_s m 8 3 (cpv_exponent x);; wret tt)%write
  end.
Definition p_cpv : bitparser CParameterValue := (a <- btake_s 15;; e <- btake_s 3;; pret (MkCParameterValue a e None))%parse.
Definition fits_CParameterValue x := cpv_raw x = None /\ sb 15 (cpv_mantissa x) /\ sb 3 (cpv_exponent x).
Lemma BRT_cpv m x : fits_CParameterValue x -> BRT (w_cpv m x) p_cpv x 18.
Proof. destruct x. unfold fits_CParameterValue, w_cpv, p_cpv. cbn -[Z.add]. intros (-> & H1 & H2). brt. Qed.
Lemma BExt_cpv : BExt p_cpv.
Proof. unfold p_cpv. bext. Qed.
Lemma BSafe_cpv : BSafe p_cpv fits_CParameterValue.
Proof. unfold p_cpv. bsafe. unfold fits_CParameterValue; cbn; bfin. Qed.
Global Hint Resolve BRT_cpv : brt.
Global Hint Resolve BExt_cpv : bext.
Global Hint Resolve BSafe_cpv : bsafe.

(** FrequencyFloat, model.rs:1279-1335: 17 + 4 bits, u32 and u8 *)
Record CFrequencyFloat := MkCFrequencyFloat { CFrequencyFloat_mantissa : Z; CFrequencyFloat_exponent : Z }.
Definition fits_CFrequencyFloat (x : CFrequencyFloat) : Prop :=
  ub 17 (CFrequencyFloat_mantissa x) /\ ub 4 (CFrequencyFloat_exponent x).
Definition w_cff (m : mode) (x : CFrequencyFloat) : BW :=
  (bput 32 17 (CFrequencyFloat_mantissa x);; bput 8 4 (CFrequencyFloat_exponent x);; wret tt)%write.
Definition p_cff : bitparser CFrequencyFloat :=
  (mantissa <- btake 17;; exponent <- btake 4;; pret (MkCFrequencyFloat mantissa exponent))%parse.
Definition len_cff (x : CFrequencyFloat) : Z := 21.
Lemma BRT_cff m x : fits_CFrequencyFloat x -> BRT (w_cff m x) p_cff x (len_cff x).
Proof.
  destruct x. unfold fits_CFrequencyFloat, w_cff, p_cff, len_cff. cbn -[Z.add]. intros (H0 & H1).
  brt.
Qed.
Lemma BExt_cff : BExt p_cff.
Proof. unfold p_cff. bext. Qed.
Lemma BSafe_cff : BSafe p_cff fits_CFrequencyFloat.
Proof. unfold p_cff. bsafe. unfold fits_CFrequencyFloat; cbn; bfin. Qed.
Global Hint Resolve BRT_cff : brt.
Global Hint Resolve BExt_cff : bext.
Global Hint Resolve BSafe_cff : bsafe.

(** ** Variable parameters: model.rs:1068-1195, writer.rs:133-230, parser.rs:183-439 *)
(** CdisArticulatedPartVP; class and metric are u32 enumerations *)
Record CArticulated := MkCArticulated { car_change : Z; car_attachment : Z; car_class : Z; car_metric : Z; car_value : CParameterValue }.
Definition uadd32 {O} (m : mode) (a b : Z) : wres O Z :=
  if a + b <? 2 ^ 32 then WOk [] (a + b) else match m with Checked => WPanic | Wrapping => WOk [] ((a + b) mod 2 ^ 32) end.
Definition w_carticulated (m : mode) (x : CArticulated) : BW :=
  (bput 8 8 (car_change x);; bput 16 10 (car_attachment x);; t <- uadd32 m (car_metric x) (car_class x);; bput 32 14 t;; w_cpv m (car_value x);; wret tt)%write.
Definition p_carticulated : bitparser CArticulated :=
  (c <- btake 8;; a <- btake 10;; t <- btake 14;; v <- p_cpv;; pret (MkCArticulated c a (t - Z.land t 31) (Z.land t 31) v))%parse.
Definition p_carticulated_unc : bitparser CArticulated :=
  (c <- btake 8;; a <- btake 16;; t <- btake 32;; v <- btake 32;; pret (MkCArticulated c a (t - Z.land t 31) (Z.land t 31) (MkCParameterValue 0 0 (Some v))))%parse.
Definition fits_CArticulated x := ub 8 (car_change x) /\ ub 10 (car_attachment x) /\ ub 5 (car_metric x) /\ car_class x mod 32 = 0 /\ ub 14 (car_class x) /\ fits_CParameterValue (car_value x).
Lemma land31 t : Z.land t 31 = t mod 32.
Proof. change 31 with (Z.ones 5). rewrite Z.land_ones by lia. reflexivity. Qed.
Lemma BRT_carticulated m x : fits_CArticulated x -> BRT (w_carticulated m x) p_carticulated x 50.
Proof.
  destruct x as [c a cl mt v]. unfold fits_CArticulated, w_carticulated, p_carticulated. cbn -[Z.add Z.sub Z.modulo Z.land Z.mul]. intros (H1 & H2 & H3 & H4 & H5 & H6).
  unfold ub in H3, H5. change (2 ^ 5) with 32 in H3. change (2 ^ 14) with 16384 in H5.
  assert (Hs : 0 <= mt + cl < 16384) by (pose proof (Z.div_mod cl 32); lia).
  unfold uadd32. destruct (Z.ltb_spec (mt + cl) (2 ^ 32)) as [_|E]; [|change (2 ^ 32) with 4294967296 in E; lia].
  assert (Hl : Z.land (mt + cl) 31 = mt) by (rewrite land31, Z.add_mod, H4, Z.add_0_r, Z.mod_mod, Z.mod_small by lia; reflexivity).
  eapply BRT_conv; [do 2 brt_step; unfold wbind at 1; cbv beta iota|..].
  -
    destruct (BRT_bind (bput 32 14 (mt + cl)) (btake 14) (mt + cl) 14 (fun _ => (w_cpv m v;; wret tt)%write)
      (fun t => (v <- p_cpv;; pret (MkCArticulated c a (t - Z.land t 31) (Z.land t 31) v))%parse) (MkCArticulated c a cl mt v) (18 + 0)) as (bs & E1 & E2 & E3).
    + apply BRT_put; [lia|exact Hs].
    + cbv beta. rewrite Hl. replace (mt + cl - mt) with cl by lia. repeat brt_step.
    + exists bs. split; [|split; [exact E2|exact E3]]. unfold wbind in *. destruct (bput 32 14 (mt + cl)) as [b1 u1|]; [|discriminate].
      destruct (w_cpv m v) as [b2 u2|]; [|discriminate]. cbn in E1 |- *. exact E1.
  - reflexivity.
  - lia.
Qed.
Lemma BExt_carticulated : BExt p_carticulated.
Proof. unfold p_carticulated. bext. Qed.
Lemma BExt_carticulated_unc : BExt p_carticulated_unc.
Proof. unfold p_carticulated_unc. bext. Qed.
Lemma BSafe_carticulated : BSafe p_carticulated fits_CArticulated.
Proof.
  unfold p_carticulated. bsafe. unfold fits_CArticulated; cbn -[Z.sub Z.modulo Z.land]. rewrite land31.
  match goal with H : ub 14 ?t |- _ => rename H into Ht; rename t into t0 end. unfold ub in *. pow_hyps. change (2 ^ 5) with 32. change (2 ^ 14) with 16384.
  pose proof (Z.mod_pos_bound t0 32 ltac:(lia)). pose proof (Z.div_mod t0 32 ltac:(lia)).
  bfin; try lia. replace (t0 - t0 mod 32) with (t0 / 32 * 32) by lia. apply Z_mod_mult.
Qed.
Lemma BSafe_carticulated_unc : BSafe p_carticulated_unc (fun _ => True).
Proof. unfold p_carticulated_unc. bsafe. exact I. Qed.
Global Hint Resolve BRT_carticulated : brt.
Global Hint Resolve BExt_carticulated BExt_carticulated_unc : bext.
Global Hint Resolve BSafe_carticulated BSafe_carticulated_unc : bsafe.

(** CdisAttachedPartVP, model.rs:1117-1132, compressed *)
Record CAttached := MkCAttached { CAttached_detached : Z; CAttached_attachment : Z; CAttached_ptype : Z; CAttached_etype : CEntityType }.
Definition fits_CAttached (x : CAttached) : Prop :=
  ub 1 (CAttached_detached x) /\ ub 10 (CAttached_attachment x) /\ ub 11 (CAttached_ptype x) /\ fits_CEntityType (CAttached_etype x).
Definition w_cattached (m : mode) (x : CAttached) : BW :=
  (bput 8 1 (CAttached_detached x);; bput 16 10 (CAttached_attachment x);; bput 32 11 (CAttached_ptype x);; w_cet m (CAttached_etype x);; wret tt)%write.
Definition p_cattached : bitparser CAttached :=
  (detached <- btake 1;; attachment <- btake 10;; ptype <- btake 11;; etype <- p_cet;; pret (MkCAttached detached attachment ptype etype))%parse.
Definition len_cattached (x : CAttached) : Z := 22 + len_cet (CAttached_etype x).
Lemma BRT_cattached m x : fits_CAttached x -> BRT (w_cattached m x) p_cattached x (len_cattached x).
Proof.
  destruct x. unfold fits_CAttached, w_cattached, p_cattached, len_cattached. cbn -[Z.add]. intros (H0 & H1 & H2 & H3).
  brt.
Qed.
Lemma BExt_cattached : BExt p_cattached.
Proof. unfold p_cattached. bext. Qed.
Lemma BSafe_cattached : BSafe p_cattached fits_CAttached.
Proof. unfold p_cattached. bsafe. unfold fits_CAttached; cbn; bfin. Qed.
Global Hint Resolve BRT_cattached : brt.
Global Hint Resolve BExt_cattached : bext.
Global Hint Resolve BSafe_cattached : bsafe.

(** CdisEntitySeparationVP, model.rs:1134-1150, compressed *)
Record CSeparation := MkCSeparation { CSeparation_reason : Z; CSeparation_pre : Z; CSeparation_parent : CEntityId; CSeparation_station : Z; CSeparation_number : Z }.
Definition fits_CSeparation (x : CSeparation) : Prop :=
  ub 3 (CSeparation_reason x) /\ ub 3 (CSeparation_pre x) /\ fits_CEntityId (CSeparation_parent x) /\ ub 6 (CSeparation_station x) /\ ub 12 (CSeparation_number x).
Definition w_cseparation (m : mode) (x : CSeparation) : BW :=
  (bput 8 3 (CSeparation_reason x);; bput 8 3 (CSeparation_pre x);; w_ceid m (CSeparation_parent x);; bput 16 6 (CSeparation_station x);; bput 16 12 (CSeparation_number x);; wret tt)%write.
Definition p_cseparation : bitparser CSeparation :=
  (reason <- btake 3;; pre <- btake 3;; parent <- p_ceid;; station <- btake 6;; number <- btake 12;; pret (MkCSeparation reason pre parent station number))%parse.
Definition len_cseparation (x : CSeparation) : Z := 24 + len_ceid (CSeparation_parent x).
Lemma BRT_cseparation m x : fits_CSeparation x -> BRT (w_cseparation m x) p_cseparation x (len_cseparation x).
Proof.
  destruct x. unfold fits_CSeparation, w_cseparation, p_cseparation, len_cseparation. cbn -[Z.add]. intros (H0 & H1 & H2 & H3 & H4).
  brt.
Qed.
Lemma BExt_cseparation : BExt p_cseparation.
Proof. unfold p_cseparation. bext. Qed.
Lemma BSafe_cseparation : BSafe p_cseparation fits_CSeparation.
Proof. unfold p_cseparation. bsafe. unfold fits_CSeparation; cbn; bfin. Qed.
Global Hint Resolve BRT_cseparation : brt.
Global Hint Resolve BExt_cseparation : bext.
Global Hint Resolve BSafe_cseparation : bsafe.

(** CdisEntityTypeVP, model.rs:1152-1164, compressed *)
Record CEntityTypeVP := MkCEntityTypeVP { CEntityTypeVP_change : Z; CEntityTypeVP_etype : CEntityType }.
Definition fits_CEntityTypeVP (x : CEntityTypeVP) : Prop :=
  ub 1 (CEntityTypeVP_change x) /\ fits_CEntityType (CEntityTypeVP_etype x).
Definition w_cetvp (m : mode) (x : CEntityTypeVP) : BW :=
  (bput 8 1 (CEntityTypeVP_change x);; w_cet m (CEntityTypeVP_etype x);; wret tt)%write.
Definition p_cetvp : bitparser CEntityTypeVP :=
  (change <- btake 1;; etype <- p_cet;; pret (MkCEntityTypeVP change etype))%parse.
Definition len_cetvp (x : CEntityTypeVP) : Z := 1 + len_cet (CEntityTypeVP_etype x).
Lemma BRT_cetvp m x : fits_CEntityTypeVP x -> BRT (w_cetvp m x) p_cetvp x (len_cetvp x).
Proof.
  destruct x. unfold fits_CEntityTypeVP, w_cetvp, p_cetvp, len_cetvp. cbn -[Z.add]. intros (H0 & H1).
  brt.
Qed.
Lemma BExt_cetvp : BExt p_cetvp.
Proof. unfold p_cetvp. bext. Qed.
Lemma BSafe_cetvp : BSafe p_cetvp fits_CEntityTypeVP.
Proof. unfold p_cetvp. bsafe. unfold fits_CEntityTypeVP; cbn; bfin. Qed.
Global Hint Resolve BRT_cetvp : brt.
Global Hint Resolve BExt_cetvp : bext.
Global Hint Resolve BSafe_cetvp : bsafe.

(** CdisEntityAssociationVP, model.rs:1166-1185, compressed *)
Record CAssociation := MkCAssociation { CAssociation_change : Z; CAssociation_status : Z; CAssociation_atype : Z; CAssociation_entity : CEntityId; CAssociation_station : Z; CAssociation_connection : Z; CAssociation_member : Z; CAssociation_group : Z }.
Definition fits_CAssociation (x : CAssociation) : Prop :=
  ub 1 (CAssociation_change x) /\ ub 4 (CAssociation_status x) /\ ub 8 (CAssociation_atype x) /\ fits_CEntityId (CAssociation_entity x) /\ ub 6 (CAssociation_station x) /\ ub 5 (CAssociation_connection x) /\ ub 4 (CAssociation_member x) /\ ub 16 (CAssociation_group x).
Definition w_cassociation (m : mode) (x : CAssociation) : BW :=
  (bput 8 1 (CAssociation_change x);; bput 8 4 (CAssociation_status x);; bput 8 8 (CAssociation_atype x);; w_ceid m (CAssociation_entity x);; bput 16 6 (CAssociation_station x);; bput 8 5 (CAssociation_connection x);; bput 8 4 (CAssociation_member x);; bput 16 16 (CAssociation_group x);; wret tt)%write.
Definition p_cassociation : bitparser CAssociation :=
  (change <- btake 1;; status <- btake 4;; atype <- btake 8;; entity <- p_ceid;; station <- btake 6;; connection <- btake 5;; member <- btake 4;; group <- btake 16;; pret (MkCAssociation change status atype entity station connection member group))%parse.
Definition len_cassociation (x : CAssociation) : Z := 44 + len_ceid (CAssociation_entity x).
Lemma BRT_cassociation m x : fits_CAssociation x -> BRT (w_cassociation m x) p_cassociation x (len_cassociation x).
Proof.
  destruct x. unfold fits_CAssociation, w_cassociation, p_cassociation, len_cassociation. cbn -[Z.add]. intros (H0 & H1 & H2 & H3 & H4 & H5 & H6 & H7).
  brt.
Qed.
Lemma BExt_cassociation : BExt p_cassociation.
Proof. unfold p_cassociation. bext. Qed.
Lemma BSafe_cassociation : BSafe p_cassociation fits_CAssociation.
Proof. unfold p_cassociation. bsafe. unfold fits_CAssociation; cbn; bfin. Qed.
Global Hint Resolve BRT_cassociation : brt.
Global Hint Resolve BExt_cassociation : bext.
Global Hint Resolve BSafe_cassociation : bsafe.

(* the uncompressed parsers: attached_part_vp parser.rs:297-312, entity_separation_vp 334-356, entity_type_vp 369-381, entity_association_vp 411-439 *)
Definition p_cattached_unc : bitparser CAttached :=
  (d <- btake 8;; a <- btake 16;; t <- btake 32;; e <- p_cet_unc;; pret (MkCAttached d a t e))%parse.
Definition p_cseparation_unc : bitparser CSeparation :=
  (r <- btake 8;; p <- btake 8;; _ <- btake 8;; e <- p_ceid_unc;; _ <- btake 16;; s <- btake 16;; n <- btake 16;; pret (MkCSeparation r p e s n))%parse.
Definition p_cetvp_unc : bitparser CEntityTypeVP := (c <- btake 8;; e <- p_cet_unc;; _ <- btake 16;; _ <- btake 32;; pret (MkCEntityTypeVP c e))%parse.
Definition p_cassociation_unc : bitparser CAssociation :=
  (c <- btake 8;; s <- btake 8;; t <- btake 8;; e <- p_ceid_unc;; st <- btake 16;; pc <- btake 8;; g <- btake 8;; n <- btake 16;; pret (MkCAssociation c s t e st pc g n))%parse.
(** CdisVariableParameter *)
Inductive CVariableParameter :=
| CVPArticulated (x : CArticulated) | CVPAttached (x : CAttached) | CVPSeparation (x : CSeparation)
| CVPEntityType (x : CEntityTypeVP) | CVPAssociation (x : CAssociation) | CVPUnspecified.
Definition w_cvp (m : mode) (x : CVariableParameter) : BW :=
  (bput 8 1 1;;
   match x with
   | CVPArticulated v => bput 8 3 0;; w_carticulated m v
   | CVPAttached v => bput 8 3 1;; w_cattached m v
   | CVPSeparation v => bput 8 3 2;; w_cseparation m v
   | CVPEntityType v => bput 8 3 3;; w_cetvp m v
   | CVPAssociation v => bput 8 3 4;; w_cassociation m v
   | CVPUnspecified => wret tt
   end)%write.
Definition p_cvp_body (ty : Z) (comp : bool) : bitparser CVariableParameter :=
  (if ty =? 0 then v <- (if comp then p_carticulated else p_carticulated_unc);; pret (CVPArticulated v)
   else if ty =? 1 then v <- (if comp then p_cattached else p_cattached_unc);; pret (CVPAttached v)
   else if ty =? 2 then v <- (if comp then p_cseparation else p_cseparation_unc);; pret (CVPSeparation v)
   else if ty =? 3 then v <- (if comp then p_cetvp else p_cetvp_unc);; pret (CVPEntityType v)
   else if ty =? 4 then v <- (if comp then p_cassociation else p_cassociation_unc);; pret (CVPAssociation v)
   else pret CVPUnspecified)%parse.
Definition p_cvp : bitparser CVariableParameter :=
  (c <- btake 1;; ty <- btake (if negb (c =? 0) then 3 else 8);; p_cvp_body ty (negb (c =? 0)))%parse.
Definition len_cvp (x : CVariableParameter) : Z :=
  4 + match x with
      | CVPArticulated _ => 50
      | CVPAttached v => len_cattached v
      | CVPSeparation v => len_cseparation v
      | CVPEntityType v => len_cetvp v
      | CVPAssociation v => len_cassociation v
      | CVPUnspecified => 0
      end.
Definition fits_CVariableParameter x : Prop :=
  match x with
  | CVPArticulated v => fits_CArticulated v | CVPAttached v => fits_CAttached v | CVPSeparation v => fits_CSeparation v
  | CVPEntityType v => fits_CEntityTypeVP v | CVPAssociation v => fits_CAssociation v | CVPUnspecified => False
  end.
Lemma BRT_cvp m x : fits_CVariableParameter x -> BRT (w_cvp m x) p_cvp x (len_cvp x).
Proof.
  intros H. unfold w_cvp, p_cvp, len_cvp. eapply BRT_conv with (L := 1 + (3 + match x with CVPArticulated _ => 50 | CVPAttached v => len_cattached v | CVPSeparation v => len_cseparation v
    | CVPEntityType v => len_cetvp v | CVPAssociation v => len_cassociation v | CVPUnspecified => 0 end)); [|reflexivity|lia].
  eapply BRT_bind; [apply BRT_put; [lia|unfold ub; change (2 ^ 1) with 2; lia]|]. cbv beta. change (negb (1 =? 0)) with true. cbv iota.
  destruct x; cbn [fits_CVariableParameter] in H; try contradiction;
  (eapply BRT_bind; [apply BRT_put; [lia|unfold ub; change (2 ^ 3) with 8; lia]|]; cbv beta; unfold p_cvp_body; cbn [Z.eqb Pos.eqb];
   eapply BRT_end; [eauto with brt|reflexivity]).
Qed.
Lemma BExt_cvp : BExt p_cvp.
Proof. unfold p_cvp, p_cvp_body, p_cattached_unc, p_cseparation_unc, p_cetvp_unc, p_cassociation_unc. bext. Qed.
Lemma BSafe_cvp : BSafe p_cvp (fun _ => True).
Proof.
  unfold p_cvp, p_cvp_body, p_cattached_unc, p_cseparation_unc, p_cetvp_unc, p_cassociation_unc.
  eapply BSafe_bind; [bsafe_atom|]. intros c _. destruct (negb (c =? 0)); (eapply BSafe_bind; [bsafe_atom|]; intros ty _; cbv beta);
  repeat match goal with |- BSafe (if ?b then _ else _) _ => destruct b end;
  repeat match goal with
  | |- BSafe (pret _) _ => apply BSafe_ret; exact I
  | |- BSafe (pbind (pbind _ _) _) _ => eapply BSafe_bind with (P := fun _ => True); [|intros ? _]
  | |- BSafe (pbind _ _) _ => eapply BSafe_bind; [bsafe_atom|intros ? ?; cbv beta]
  end.
Qed.
Global Hint Resolve BRT_cvp : brt.
Global Hint Resolve BExt_cvp : bext.
Global Hint Resolve BSafe_cvp : bsafe.

(** ** Datum records: FixedDatum, VariableDatum and DatumSpecification of dis-rs
    model.rs:276-299, writer.rs:232-254, parser.rs:441-465 *)
Definition fits_cFixedDatum (d : FixedDatum) := ub 32 (fd_id d) /\ ub 32 (fd_value d).
Definition w_cfd (m : mode) (d : FixedDatum) : BW := (bput 32 32 (fd_id d);; bput 32 32 (fd_value d);; wret tt)%write.
Definition p_cfd : bitparser FixedDatum := (i <- btake 32;; v <- btake 32;; pret (MkFixedDatum i v))%parse.
Definition len_cfd (d : FixedDatum) : Z := 64.
Lemma BRT_cfd m x : fits_cFixedDatum x -> BRT (w_cfd m x) p_cfd x (len_cfd x).
Proof. destruct x. unfold fits_cFixedDatum, w_cfd, p_cfd, len_cfd. cbn -[Z.add]. intros (H1 & H2). brt. Qed.
Lemma BExt_cfd : BExt p_cfd.
Proof. unfold p_cfd. bext. Qed.
Lemma BSafe_cfd : BSafe p_cfd fits_cFixedDatum.
Proof. unfold p_cfd. bsafe. unfold fits_cFixedDatum; cbn; bfin. Qed.
Global Hint Resolve BRT_cfd : brt.
Global Hint Resolve BExt_cfd : bext.
Global Hint Resolve BSafe_cfd : bsafe.
(** u16::from_usize(len * 8).unwrap_or(16383): the low fourteen bits are stored *)
Definition datum_bits (n : Z) : Z := if 8 * n <? 65536 then 8 * n else 16383.
Definition w_cvd (m : mode) (d : VariableDatum) : BW :=
  (bput 32 32 (vd_id d);; bput 16 14 (datum_bits (zlen (vd_value d)));; bw_list (fun b => bput 8 8 b) (vd_value d);; wret tt)%write.
Definition p_cvd : bitparser VariableDatum :=
  (i <- btake 32;; n <- btake 14;; v <- count (btake 8) (n / 8);;
   (if n mod 8 =? 0 then pret (MkVariableDatum i v)
    else b <- btake (n mod 8);; pret (MkVariableDatum i (v ++ [b * 2 ^ (8 - n mod 8)]))))%parse.
Definition len_cvd (d : VariableDatum) : Z := 46 + 8 * zlen (vd_value d).
Definition fits_cVariableDatum (d : VariableDatum) := ub 32 (vd_id d) /\ Forall (ub 8) (vd_value d) /\ zlen (vd_value d) <= 2047.
Lemma BRT_cvd m x : fits_cVariableDatum x -> BRT (w_cvd m x) p_cvd x (len_cvd x).
Proof.
  destruct x as [i v]. unfold fits_cVariableDatum, w_cvd, p_cvd, len_cvd. cbn [vd_id vd_value]. intros (H1 & H2 & H3). pose proof (zlen_nonneg v).
  assert (Hd : datum_bits (zlen v) = 8 * zlen v) by (unfold datum_bits; destruct (Z.ltb_spec (8 * zlen v) 65536); lia). rewrite Hd.
  eapply BRT_conv with (L := 32 + (14 + (8 * zlen v + 0))); [|reflexivity|lia].
  eapply BRT_bind; [apply BRT_put; [lia|exact H1]|]. cbv beta. eapply BRT_bind; [apply BRT_put; [lia|unfold ub; change (2 ^ 14) with 16384; lia]|]. cbv beta.
  rewrite (Z.mul_comm 8 (zlen v)), Z_div_mult, Z_mod_mult by lia. change (0 =? 0) with true. cbv iota. rewrite (Z.mul_comm (zlen v) 8). rewrite <- (zsum_k v 8).
  eapply BRT_bind; [|apply BRT_ret]. apply BRT_list; [reflexivity|]. intros b Hb. rewrite Forall_forall in H2. apply BRT_put; [lia|now apply H2].
Qed.
Lemma BExt_cvd : BExt p_cvd.
Proof. unfold p_cvd. bext. Qed.
Lemma BSafe_cvd : BSafe p_cvd (fun d => ub 32 (vd_id d) /\ Forall (ub 8) (vd_value d) /\ zlen (vd_value d) <= 2048).
Proof.
  unfold p_cvd. eapply BSafe_bind; [bsafe_atom|]. intros i Hi. eapply BSafe_bind; [apply BSafe_take; lia|]. intros n Hn. cbv beta. unfold ub in Hn. change (2 ^ 14) with 16384 in Hn.
  eapply BSafe_bind; [eapply BSafe_count; apply BSafe_take; lia|]. intros v [Hv Hl]. cbv beta.
  assert (Hq : 0 <= n / 8 <= 2047) by (split; [apply Z.div_pos; lia|apply Z.lt_succ_r; apply Z.div_lt_upper_bound; lia]).
  rewrite Z2Nat.id in Hl by lia.
  destruct (Z.eqb_spec (n mod 8) 0) as [E|E].
  - apply BSafe_ret. cbn [vd_id vd_value]. repeat split; auto; try apply Hi. lia.
  - pose proof (Z.mod_pos_bound n 8 ltac:(lia)). eapply BSafe_bind; [apply BSafe_take; lia|]. intros b Hb. cbv beta in Hb. apply BSafe_ret. cbn [vd_id vd_value].
    split; [exact Hi|]. split.
    + apply Forall_app. split; [exact Hv|]. constructor; [|constructor]. unfold ub in *. assert (2 ^ 8 = 2 ^ (n mod 8) * 2 ^ (8 - n mod 8)) as -> by (rewrite <- Z.pow_add_r by lia; f_equal; lia).
      assert (0 < 2 ^ (8 - n mod 8)) by (apply Z.pow_pos_nonneg; lia). nia.
    + rewrite zlen_app. change (zlen [b * 2 ^ (8 - n mod 8)]) with 1. lia.
Qed.
Global Hint Resolve BRT_cvd : brt.
Global Hint Resolve BExt_cvd : bext.
Global Hint Resolve BSafe_cvd : bsafe.
(** u8::from_usize(len).unwrap_or(u8::MAX) *)
Definition count8 (n : Z) : Z := if n <? 256 then n else 255.
Definition len_cdatum_spec (d : DatumSpecification) : Z :=
  len_uvint8 (count8 (zlen (ds_fixed d))) + len_uvint8 (count8 (zlen (ds_variable d))) + 64 * zlen (ds_fixed d) + zsum (map len_cvd (ds_variable d)).
(** Two optional lists with their counts, as the simulation management PDUs write and read them (for instance data/writer.rs:10-27,
    data/parser.rs:19-35): bit 0x02 of the fields-present word announces the first list, 0x01 the second. A count is written only
    for a non-empty list, as [len() as u8]. *)
Definition nonempty {A} (l : list A) : bool := match l with [] => false | _ => true end.
Definition w_cnt {A} (l : list A) : BW := if nonempty l then w_uvint8 (zlen l mod 256) else wret tt.
Definition w_two {A B} (wa : A -> BW) (wb : B -> BW) (a : list A) (b : list B) : BW :=
  (w_cnt a;; w_cnt b;; bw_list wa a;; bw_list wb b;; wret tt)%write.
Definition odflt (o : option Z) : Z := match o with Some n => n | None => 0 end.
Definition p_two {A B} (pa : bitparser A) (pb : bitparser B) (fp : Z) : bitparser (list A * list B) :=
  (na <- p_when fp 2 p_uvint8;; nb <- p_when fp 1 p_uvint8;; a <- count pa (odflt na);; b <- count pb (odflt nb);; pret (a, b))%parse.
Definition two_fields {A B} (a : list A) (b : list B) : Z := Z.lor (fbit (nonempty a) 2) (fbit (nonempty b) 1).
Definition cnt_bits {A} (l : list A) : Z := if nonempty l then len_uvint8 (zlen l) else 0.
Lemma nonempty_false {A} (l : list A) : nonempty l = false -> zlen l = 0.
Proof. destruct l; [reflexivity|discriminate]. Qed.
Lemma BRT_cnt {A} (l : list A) fp mask : zlen l < 256 -> field_present fp mask = nonempty l ->
  BRT (w_cnt l) (p_when fp mask p_uvint8) (if nonempty l then Some (zlen l) else None) (cnt_bits l).
Proof.
  intros Hl Hf. unfold w_cnt, p_when, cnt_bits. rewrite Hf. pose proof (zlen_nonneg l). rewrite Z.mod_small by lia. destruct (nonempty l).
  - eapply BRT_end; [apply BRT_uvint8; unfold ub; change (2 ^ 8) with 256; lia|reflexivity].
  - apply BRT_ret.
Qed.
Lemma odflt_cnt {A} (l : list A) : odflt (if nonempty l then Some (zlen l) else None) = zlen l.
Proof. destruct l; reflexivity. Qed.
Lemma BRT_two {A B} (wa : A -> BW) (wb : B -> BW) (pa : bitparser A) (pb : bitparser B) la lb a b :
  zlen a < 256 -> zlen b < 256 -> (forall x, In x a -> BRT (wa x) pa x (la x)) -> (forall x, In x b -> BRT (wb x) pb x (lb x)) ->
  BRT (w_two wa wb a b) (p_two pa pb (two_fields a b)) (a, b) (cnt_bits a + (cnt_bits b + (zsum (map la a) + (zsum (map lb b) + 0)))).
Proof.
  intros Ha Hb Hwa Hwb. unfold w_two, p_two.
  eapply BRT_bind; [apply BRT_cnt; [exact Ha|unfold two_fields; fp_tac]|]. cbv beta.
  eapply BRT_bind; [apply BRT_cnt; [exact Hb|unfold two_fields; fp_tac]|]. cbv beta. rewrite !odflt_cnt.
  eapply BRT_bind; [apply BRT_list; [reflexivity|exact Hwa]|]. cbv beta.
  eapply BRT_bind; [apply BRT_list; [reflexivity|exact Hwb]|]. apply BRT_ret.
Qed.
Lemma BExt_two {A B} (pa : bitparser A) (pb : bitparser B) fp : BExt pa -> BExt pb -> BExt (p_two pa pb fp).
Proof. intros Ha Hb. unfold p_two. bext; assumption. Qed.
Lemma BSafe_two {A B} (pa : bitparser A) (pb : bitparser B) fp P Q : BSafe pa P -> BSafe pb Q -> BSafe (p_two pa pb fp) (fun _ => True).
Proof.
  intros Ha Hb. unfold p_two. eapply BSafe_bind; [bsafe_atom|]. intros na _. eapply BSafe_bind; [bsafe_atom|]. intros nb _. cbv beta.
  eapply BSafe_bind; [eapply BSafe_count; exact Ha|]. intros x _. eapply BSafe_bind; [eapply BSafe_count; exact Hb|]. intros y _. now apply BSafe_ret.
Qed.
Lemma ub_two {A B} (a : list A) (b : list B) : ub 2 (two_fields a b).
Proof. unfold two_fields. ub_word. Qed.
(** the datum specification in this form *)
Definition w_cdatums (m : mode) (d : DatumSpecification) : BW := w_two (w_cfd m) (w_cvd m) (ds_fixed d) (ds_variable d).
Definition p_cdatums (fp : Z) : bitparser DatumSpecification := (l <- p_two p_cfd p_cvd fp;; pret (MkDatumSpecification (fst l) (snd l)))%parse.
Definition datum_fields (d : DatumSpecification) : Z := two_fields (ds_fixed d) (ds_variable d).
(** the number of bits this takes *)
Definition bits_cdatums (d : DatumSpecification) : Z :=
  cnt_bits (ds_fixed d) + cnt_bits (ds_variable d) + 64 * zlen (ds_fixed d) + zsum (map len_cvd (ds_variable d)).
Definition fits_cDatumSpec (d : DatumSpecification) :=
  zlen (ds_fixed d) < 256 /\ zlen (ds_variable d) < 256 /\ Forall fits_cFixedDatum (ds_fixed d) /\ Forall fits_cVariableDatum (ds_variable d).
Lemma BRT_cdatums m d : fits_cDatumSpec d -> BRT (w_cdatums m d) (p_cdatums (datum_fields d)) d (bits_cdatums d).
Proof.
  intros (H1 & H2 & H3 & H4). destruct d as [f v]. cbn [ds_fixed ds_variable] in *. unfold w_cdatums, p_cdatums, datum_fields, bits_cdatums. cbn [ds_fixed ds_variable].
  rewrite Forall_forall in H3, H4. rewrite <- (zsum_k f 64).
  eapply BRT_conv; [eapply BRT_end; [apply (BRT_two _ _ _ _ (fun _ => 64) len_cvd)|cbv beta; reflexivity]|reflexivity|lia]; auto; intros; eauto with brt.
Qed.
Lemma BExt_cdatums fp : BExt (p_cdatums fp).
Proof. unfold p_cdatums. bext. apply BExt_two; auto with bext. Qed.
Lemma BSafe_cdatums fp : BSafe (p_cdatums fp) (fun _ => True).
Proof. unfold p_cdatums. eapply BSafe_bind; [eapply BSafe_two; bsafe_atom|]. intros. now apply BSafe_ret. Qed.
Global Hint Resolve BRT_cdatums : brt.
Global Hint Resolve BExt_cdatums : bext.
Global Hint Resolve BSafe_cdatums : bsafe.
(** the declared length counts both counts even when they are not written *)
Lemma len_bits_datums d : fits_cDatumSpec d ->
  len_cdatum_spec d = bits_cdatums d + (if nonempty (ds_fixed d) then 0 else 5) + (if nonempty (ds_variable d) then 0 else 5).
Proof.
  intros (H1 & H2 & _). unfold len_cdatum_spec, bits_cdatums, cnt_bits, count8. destruct (Z.ltb_spec (zlen (ds_fixed d)) 256); [|lia]. destruct (Z.ltb_spec (zlen (ds_variable d)) 256); [|lia].
  destruct (nonempty (ds_fixed d)) eqn:E1, (nonempty (ds_variable d)) eqn:E2; try apply nonempty_false in E1; try apply nonempty_false in E2; rewrite ?E1, ?E2; change (len_uvint8 0) with 5; lia.
Qed.
Lemma BRT_clock2 m c : sb 32 (fst c) -> ub 32 (snd c) -> BRT (w_clock m (fst c) (snd c)) p_clock c 64.
Proof. destruct c. apply BRT_clock. Qed.
Global Hint Resolve BRT_clock2 : brt.
Lemma fold_count8 n : 0 <= n -> ub 8 (count8 n).
Proof. unfold ub, count8. change (2 ^ 8) with 256. destruct (Z.ltb_spec n 256); lia. Qed.
(** two one-bit fields read as one number *)
Lemma BRT_two_bits a b : ub 1 a -> ub 1 b -> BRT (bput 8 1 a;; bput 8 1 b;; wret tt)%write (btake 2) (2 * a + b) 2.
Proof.
  unfold ub. change (2 ^ 1) with 2. intros Ha Hb. assert (a = 0 \/ a = 1) as [-> | ->] by lia; assert (b = 0 \/ b = 1) as [-> | ->] by lia;
  (eexists; split; [vm_compute; reflexivity|split; [reflexivity|intros rest]]); (rewrite btake_app; [reflexivity|reflexivity]).
Qed.

(** ** Encoding scheme: model.rs:301-332, writer.rs:256-277, parser.rs:467-497
    [cen_variant]: 0 EncodedAudio, 1 RawBinaryData, 2 Unspecified; [cen_class] the SignalEncodingClass (u16); [cen_value] the type (u16) or u8. *)
Record CEncodingScheme := MkCEncodingScheme { cen_variant : Z; cen_class : Z; cen_value : Z }.
Definition w_cencoding (m : mode) (x : CEncodingScheme) : BW := (bput 16 2 (cen_class x);; w_uvint8 (cen_value x mod 256);; wret tt)%write.
Definition p_cencoding : bitparser CEncodingScheme :=
  (c <- btake 2;; t <- p_uvint8;; pret (MkCEncodingScheme (if c =? 0 then 0 else if c =? 1 then 1 else 2) c t))%parse.
Definition len_cencoding (x : CEncodingScheme) : Z := 2 + len_uvint8 (cen_value x mod 256).
Definition fits_CEncodingScheme x := ub 2 (cen_class x) /\ ub 8 (cen_value x) /\ cen_variant x = (if cen_class x =? 0 then 0 else if cen_class x =? 1 then 1 else 2).
Lemma BRT_cencoding m x : fits_CEncodingScheme x -> BRT (w_cencoding m x) p_cencoding x (len_cencoding x).
Proof.
  destruct x as [vr c t]. unfold fits_CEncodingScheme, w_cencoding, p_cencoding, len_cencoding. cbn [cen_class cen_value cen_variant]. intros (H1 & H2 & ->).
  rewrite (Z.mod_small t 256) by (unfold ub in H2; change (2 ^ 8) with 256 in H2; exact H2). brt.
Qed.
Lemma BExt_cencoding : BExt p_cencoding.
Proof. unfold p_cencoding. bext. Qed.
Lemma BSafe_cencoding : BSafe p_cencoding fits_CEncodingScheme.
Proof. unfold p_cencoding. eapply BSafe_bind; [bsafe_atom|]. intros c Hc. eapply BSafe_bind; [bsafe_atom|]. intros t Ht. apply BSafe_ret. unfold fits_CEncodingScheme; cbn; bfin. Qed.
Global Hint Resolve BRT_cencoding : brt.
Global Hint Resolve BExt_cencoding : bext.
Global Hint Resolve BSafe_cencoding : bsafe.

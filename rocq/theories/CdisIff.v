(** * C-DIS IFF

    Models cdis-assemble/src/iff/{model,parser,writer}.rs. Bit-field records (statuses, altitudes, ...) are their numbers; the parser's
    [From<u8>] and [From<u16>] keep the defined bits and force some ([bits_of], see DisIff.v). Strings are lists of octets. *)
From Coq Require Import ZArith List Lia Bool.
From Verif Require Import Base DisCommon DisEntity DisEmission DisRadio DisIff CdisBase CdisRecords CdisBodies1 CdisBodies2.
Import ListNotations. Open Scope Z_scope.

(** ** Records *)
Lemma BRT_map {A B} (w : BW) (p : bitparser A) (g : A -> B) x y L : BRT w p x L -> g x = y -> BRT w (a <- p;; pret (g a))%parse y L.
Proof. intros H <-. eapply BRT_end; [exact H|reflexivity]. Qed.
(** a word read through [From<uN>] *)
Definition p_word (n mask force : Z) : bitparser Z := (v <- btake n;; pret (bits_of mask force v))%parse.
Lemma BRT_word ty n mask force v : 1 <= n <= ty -> ub n v -> bits_ok mask force v -> BRT (bput ty n v) (p_word n mask force) v n.
Proof. intros H1 H2 H3. unfold p_word. eapply BRT_map; [now apply BRT_put|exact H3]. Qed.
Lemma BExt_word n a b : BExt (p_word n a b).
Proof. unfold p_word. bext. Qed.
Lemma BSafe_word n a b : 0 <= n -> BSafe (p_word n a b) (fun _ => True).
Proof. intros. unfold p_word. eapply BSafe_bind; [now apply BSafe_take|]. intros. now apply BSafe_ret. Qed.
Global Hint Resolve BExt_word : bext.
Global Hint Extern 2 (BSafe (p_word _ _ _) _) => apply BSafe_word; lia : bsafe.
Global Hint Extern 2 (BRT (bput _ _ _) (p_word _ _ _) _ _) => apply BRT_word; [lia|assumption|assumption] : brt.

(** SystemId (dis_rs): writer.rs:47-56, parser.rs:71-88; 20 bits *)
Definition w_csysid (x : SystemId) : BW := (bput 16 4 (si_type x);; bput 16 5 (si_name x);; bput 8 3 (si_mode x);; bput 8 8 (si_change x);; wret tt)%write.
Definition p_csysid : bitparser SystemId := (t <- btake 4;; n <- btake 5;; m <- btake 3;; c <- btake 8;; pret (MkSystemId t n m c))%parse.
Definition fits_cSystemId x := ub 4 (si_type x) /\ ub 5 (si_name x) /\ ub 3 (si_mode x) /\ ub 8 (si_change x).
Lemma BRT_csysid x : fits_cSystemId x -> BRT (w_csysid x) p_csysid x 20.
Proof. destruct x. unfold fits_cSystemId, w_csysid, p_csysid. cbn -[Z.add]. intros (H1 & H2 & H3 & H4). brt. Qed.
Lemma BExt_csysid : BExt p_csysid.
Proof. unfold p_csysid. bext. Qed.
Lemma BSafe_csysid : BSafe p_csysid (fun _ => True).
Proof. unfold p_csysid. bsafe. exact I. Qed.
Global Hint Resolve BRT_csysid : brt.
Global Hint Resolve BExt_csysid : bext.
Global Hint Resolve BSafe_csysid : bsafe.

(** CdisFundamentalOperationalData: model.rs:96-122, writer.rs:58-95, parser.rs:90-131 *)
Record CFundOpData := MkCFundOpData { cfo_status : Z; cfo_field1 : option Z; cfo_layers : Z; cfo_field2 : option Z;
  cfo_p1 : option Z; cfo_p2 : option Z; cfo_p3 : option Z; cfo_p4 : option Z; cfo_p5 : option Z; cfo_p6 : option Z }.
Definition w_o8 (o : option Z) : BW := w_opt (fun a => bput 8 8 a) o.
Definition w_o16 (o : option Z) : BW := w_opt (fun a => bput 16 16 a) o.
Definition w_cfo (x : CFundOpData) : BW :=
  (bput 8 8 (cfo_status x);; w_o8 (cfo_field1 x);; bput 8 8 (cfo_layers x);; w_o8 (cfo_field2 x);;
   w_o16 (cfo_p1 x);; w_o16 (cfo_p2 x);; w_o16 (cfo_p3 x);; w_o16 (cfo_p4 x);; w_o16 (cfo_p5 x);; w_o16 (cfo_p6 x);; wret tt)%write.
Definition p_cfo (fp : Z) : bitparser CFundOpData :=
  (s <- btake 8;; a <- p_when fp 128 (btake 8);; l <- p_word 8 m_layers 0;; b <- p_when fp 64 (btake 8);;
   p1 <- p_when fp 32 (btake 16);; p2 <- p_when fp 16 (btake 16);; p3 <- p_when fp 8 (btake 16);; p4 <- p_when fp 4 (btake 16);;
   p5 <- p_when fp 2 (btake 16);; p6 <- p_when fp 1 (btake 16);; pret (MkCFundOpData s a l b p1 p2 p3 p4 p5 p6))%parse.
Definition ol (n : Z) (o : option Z) : Z := opt_len (fun _ => n) o.
Definition len_cfo (x : CFundOpData) : Z :=
  16 + ol 8 (cfo_field1 x) + ol 8 (cfo_field2 x) + ol 16 (cfo_p1 x) + ol 16 (cfo_p2 x) + ol 16 (cfo_p3 x) + ol 16 (cfo_p4 x) + ol 16 (cfo_p5 x) + ol 16 (cfo_p6 x).
Definition fits_CFundOpData x := ub 8 (cfo_status x) /\ oub 8 (cfo_field1 x) /\ ub 8 (cfo_layers x) /\ oub 8 (cfo_field2 x) /\
  oub 16 (cfo_p1 x) /\ oub 16 (cfo_p2 x) /\ oub 16 (cfo_p3 x) /\ oub 16 (cfo_p4 x) /\ oub 16 (cfo_p5 x) /\ oub 16 (cfo_p6 x).
Definition fields_cfo (x : CFundOpData) : Z :=
  Z.lor (fbit (is_some (cfo_field1 x)) 128) (Z.lor (fbit (is_some (cfo_field2 x)) 64) (Z.lor (fbit (is_some (cfo_p1 x)) 32) (Z.lor (fbit (is_some (cfo_p2 x)) 16)
  (Z.lor (fbit (is_some (cfo_p3 x)) 8) (Z.lor (fbit (is_some (cfo_p4 x)) 4) (Z.lor (fbit (is_some (cfo_p5 x)) 2) (fbit (is_some (cfo_p6 x)) 1))))))).
Definition cfo_fp (fp : Z) (x : CFundOpData) : Prop :=
  field_present fp 128 = is_some (cfo_field1 x) /\ field_present fp 64 = is_some (cfo_field2 x) /\ field_present fp 32 = is_some (cfo_p1 x) /\
  field_present fp 16 = is_some (cfo_p2 x) /\ field_present fp 8 = is_some (cfo_p3 x) /\ field_present fp 4 = is_some (cfo_p4 x) /\
  field_present fp 2 = is_some (cfo_p5 x) /\ field_present fp 1 = is_some (cfo_p6 x).
Lemma BRT_cfo fp x : fits_CFundOpData x -> bits_ok m_layers 0 (cfo_layers x) -> cfo_fp fp x -> BRT (w_cfo x) (p_cfo fp) x (len_cfo x).
Proof.
  destruct x. unfold fits_CFundOpData, cfo_fp, w_cfo, p_cfo, len_cfo, ol, w_o8, w_o16, oub. cbn [cfo_status cfo_field1 cfo_layers cfo_field2 cfo_p1 cfo_p2 cfo_p3 cfo_p4 cfo_p5 cfo_p6].
  intros (H0 & H1 & H2 & H3 & H4 & H5 & H6 & H7 & H8 & H9) Hl (F1 & F2 & F3 & F4 & F5 & F6 & F7 & F8).
  eapply BRT_conv with (L := 8 + (_ + (8 + (_ + (_ + (_ + (_ + (_ + (_ + (_ + 0)))))))))); [|reflexivity|].
  { eapply BRT_bind; [apply BRT_put; [lia|exact H0]|cbv beta].
    eapply BRT_bind; [apply (BRT_when (fun a => bput 8 8 a) (btake 8) (fun _ => 8)); [exact F1|intros; apply BRT_put; [lia|auto]]|cbv beta].
    eapply BRT_bind; [apply BRT_word; [lia|exact H2|exact Hl]|cbv beta].
    eapply BRT_bind; [apply (BRT_when (fun a => bput 8 8 a) (btake 8) (fun _ => 8)); [exact F2|intros; apply BRT_put; [lia|auto]]|cbv beta].
    do 6 (eapply BRT_bind; [apply (BRT_when (fun a => bput 16 16 a) (btake 16) (fun _ => 16)); [assumption|intros; apply BRT_put; [lia|auto]]|cbv beta]).
    apply BRT_ret. }
  cbv beta delta [opt_len]. lia.
Qed.
Lemma BLen_cfo x : BLen (w_cfo x) (len_cfo x).
Proof.
  unfold w_cfo, len_cfo, w_o8, w_o16, ol.
  eapply BLen_conv; [repeat first [apply BLen_ret | apply BLen_put; lia | apply BLen_opt with (len := fun _ => 8); intros; apply BLen_put; lia
    | apply BLen_opt with (len := fun _ => 16); intros; apply BLen_put; lia | eapply BLen_bind]|lia].
Qed.
Lemma BExt_cfo fp : BExt (p_cfo fp).
Proof. unfold p_cfo. bext. Qed.
Lemma BSafe_cfo fp : BSafe (p_cfo fp) (fun _ => True).
Proof. unfold p_cfo. bsafe. exact I. Qed.
Global Hint Resolve BExt_cfo : bext.
Global Hint Resolve BSafe_cfo : bsafe.

(** IffFundamentalParameterData: model.rs:143-158, writer.rs:112-130, parser.rs:158-187; 86 bits *)
Record CIffParameter := MkCIffParameter { cip_erp : Z; cip_frequency : CFrequencyFloat; cip_pgrf : Z; cip_pulse : Z; cip_burst : Z; cip_modes : Z; cip_s1 : Z; cip_s2 : Z; cip_s3 : Z }.
Definition w_cip (m : mode) (x : CIffParameter) : BW :=
  (bput 8 8 (cip_erp x);; w_cff m (cip_frequency x);; bput 16 10 (cip_pgrf x);; bput 16 10 (cip_pulse x);; bput 16 10 (cip_burst x);; bput 8 3 (cip_modes x);;
   bput 8 8 (cip_s1 x);; bput 8 8 (cip_s2 x);; bput 8 8 (cip_s3 x);; wret tt)%write.
Definition p_cip : bitparser CIffParameter :=
  (a <- btake 8;; f <- p_cff;; b <- btake 10;; c <- btake 10;; d <- btake 10;; m <- btake 3;; x <- btake 8;; y <- btake 8;; z <- btake 8;;
   pret (MkCIffParameter a f b c d m x y z))%parse.
Definition len_cip (_ : CIffParameter) : Z := 86.
Definition fits_CIffParameter x := ub 8 (cip_erp x) /\ fits_CFrequencyFloat (cip_frequency x) /\ ub 10 (cip_pgrf x) /\ ub 10 (cip_pulse x) /\ ub 10 (cip_burst x) /\ ub 3 (cip_modes x) /\
  ub 8 (cip_s1 x) /\ ub 8 (cip_s2 x) /\ ub 8 (cip_s3 x).
Lemma BRT_cip m x : fits_CIffParameter x -> BRT (w_cip m x) p_cip x (len_cip x).
Proof.
  destruct x. unfold fits_CIffParameter, w_cip, p_cip, len_cip. cbn [cip_erp cip_frequency cip_pgrf cip_pulse cip_burst cip_modes cip_s1 cip_s2 cip_s3].
  intros (H0 & H1 & H2 & H3 & H4 & H5 & H6 & H7 & H8). brt.
Qed.
Lemma BExt_cip : BExt p_cip.
Proof. unfold p_cip. bext. Qed.
Lemma BSafe_cip : BSafe p_cip (fun _ => True).
Proof. unfold p_cip. bsafe. exact I. Qed.
Global Hint Resolve BRT_cip : brt.
Global Hint Resolve BExt_cip : bext.
Global Hint Resolve BSafe_cip : bsafe.

(** IffDataRecord: model.rs:180-184, writer.rs:224-233, parser.rs:280-292. The type is a u32 written in 16 bits; the length octet counts the
    type, itself and the octets, as a usize. *)
Definition len_cidr (x : IffDataRecord) : Z := 24 + 8 * zlen (idr_fields x).
Definition w_cidr (x : IffDataRecord) : BW := (bput 32 16 (idr_type x);; bput 64 8 (len_cidr x / 8);; bw_list (fun a => bput 8 8 a) (idr_fields x);; wret tt)%write.
Definition p_cidr : bitparser IffDataRecord := (t <- btake 16;; l <- btake 8;; f <- count (btake 8) (Z.max 0 (l - 3));; pret (MkIffDataRecord t f))%parse.
Definition fits_cIffDataRecord x := ub 16 (idr_type x) /\ Forall (ub 8) (idr_fields x) /\ zlen (idr_fields x) <= 252.
Lemma BRT_cidr x : fits_cIffDataRecord x -> BRT (w_cidr x) p_cidr x (len_cidr x).
Proof.
  destruct x as [t f]. unfold fits_cIffDataRecord, w_cidr, p_cidr, len_cidr. cbn [idr_type idr_fields]. intros (H1 & H2 & H3). pose proof (zlen_nonneg f). rewrite Forall_forall in H2.
  replace ((24 + 8 * zlen f) / 8) with (3 + zlen f) by (replace (24 + 8 * zlen f) with ((3 + zlen f) * 8) by lia; now rewrite Z.div_mul).
  eapply BRT_conv; [eapply BRT_bind; [apply BRT_put; [lia|exact H1]|cbv beta]; eapply BRT_bind; [apply BRT_put; [lia|unfold ub; change (2 ^ 8) with 256; lia]|cbv beta];
    eapply BRT_bind; [apply BRT_list with (len := fun _ => 8); [rewrite Z.max_r by lia; lia|intros; apply BRT_put; [lia|auto]]|cbv beta]; apply BRT_ret|reflexivity|].
  rewrite (zsum_const (fun _ => 8) 8) by reflexivity. lia.
Qed.
Lemma BLen_cidr x : BLen (w_cidr x) (len_cidr x).
Proof.
  unfold w_cidr. eapply BLen_conv; [eapply BLen_bind; [apply BLen_put; lia|]; eapply BLen_bind; [apply BLen_put; lia|]; eapply BLen_bind;
    [apply BLen_list with (len := fun _ => 8); intros; apply BLen_put; lia|apply BLen_ret]|].
  unfold len_cidr. rewrite (zsum_const (fun _ => 8) 8) by reflexivity. lia.
Qed.
Lemma BExt_cidr : BExt p_cidr.
Proof. unfold p_cidr. bext. Qed.
Lemma BSafe_cidr : BSafe p_cidr (fun _ => True).
Proof. unfold p_cidr. bsafe; exact I. Qed.
Global Hint Resolve BRT_cidr : brt.
Global Hint Resolve BExt_cidr : bext.
Global Hint Resolve BSafe_cidr : bsafe.
(** the list of records of layers 3 to 5: 5-bit count and records, only when there are any; the flag bit before the header says so *)
Definition w_cidrs (l : list IffDataRecord) : BW := if nonempty l then (bput 64 5 (zlen l);; bw_list w_cidr l;; wret tt)%write else wret tt.
Definition p_cidrs (b : bool) : bitparser (list IffDataRecord) := if b then (n <- btake 5;; count p_cidr n)%parse else pret [].
Definition bits_cidrs (l : list IffDataRecord) : Z := (if nonempty l then 5 else 0) + zsum (map len_cidr l).
Definition fits_cidrs l := Forall fits_cIffDataRecord l /\ zlen l <= 31.
Lemma BRT_cidrs l : fits_cidrs l -> BRT (w_cidrs l) (p_cidrs (nonempty l)) l (bits_cidrs l).
Proof.
  intros (H1 & H2). unfold w_cidrs, p_cidrs, bits_cidrs. pose proof (zlen_nonneg l). rewrite Forall_forall in H1. destruct l as [|a l]; [apply BRT_ret|].
  cbn [nonempty]. eapply BRT_conv with (L := 5 + (zsum (map len_cidr (a :: l)))); [|reflexivity|lia].
  eapply BRT_bind; [apply BRT_put; [lia|unfold ub; change (2 ^ 5) with 32; lia]|cbv beta].
  eapply BRT_conv with (L := _ + 0); [|reflexivity|]. 2: apply Z.add_0_r.
  pose proof (BRT_list w_cidr p_cidr len_cidr (a :: l) (zlen (a :: l)) eq_refl) as B.
  specialize (B (fun x Hx => BRT_cidr x (H1 x Hx))). destruct B as (bs & E1 & E2 & E3). exists bs. rewrite E1. unfold wbind, wret. rewrite app_nil_r. split; [reflexivity|].
  split; [lia|exact E3].
Qed.
Lemma BLen_cidrs l : BLen (w_cidrs l) (bits_cidrs l).
Proof.
  unfold w_cidrs, bits_cidrs. destruct l as [|a l]; [apply BLen_ret|]. cbn [nonempty].
  eapply BLen_conv; [eapply BLen_bind; [apply BLen_put; lia|]; eapply BLen_bind; [apply BLen_list with (len := len_cidr); intros; apply BLen_cidr|apply BLen_ret]|lia].
Qed.
Lemma BExt_cidrs b : BExt (p_cidrs b).
Proof. unfold p_cidrs. destruct b; bext. Qed.
Lemma BSafe_cidrs b : BSafe (p_cidrs b) (fun _ => True).
Proof. unfold p_cidrs. destruct b; [|now apply BSafe_ret]. eapply BSafe_bind; [apply BSafe_take; lia|]. intros. eapply BSafe_true, BSafe_count, BSafe_cidr. Qed.
Global Hint Resolve BExt_cidrs : bext.
Global Hint Resolve BSafe_cidrs : bsafe.

(** Mode 5 basic data: model.rs:221-262, writer.rs:185-222, parser.rs:213-278 *)
Record CMode5Interrogator := MkCM5I { cm5i_status : Z; cm5i_formats : Z; cm5i_entity : CEntityId }.
Inductive CMode5BasicData := CM5Interrogator (x : CMode5Interrogator) | CM5Transponder (x : Mode5Transponder).
Definition w_cm5i (m : mode) (x : CMode5Interrogator) : BW := (bput 8 8 (cm5i_status x);; bput 32 32 (cm5i_formats x);; w_ceid m (cm5i_entity x);; wret tt)%write.
Definition p_cm5i : bitparser CMode5Interrogator := (s <- p_word 8 m_m5i_status 0;; f <- btake 32;; e <- p_ceid;; pret (MkCM5I s f e))%parse.
Definition len_cm5i (x : CMode5Interrogator) : Z := 40 + len_ceid (cm5i_entity x).
Definition w_cm5t (x : Mode5Transponder) : BW :=
  (bput 16 16 (m5t_status x);; bput 16 16 (m5t_pin x);; bput 32 32 (m5t_formats x);; bput 16 16 (m5t_mode1 x);; bput 16 16 (m5t_origin x);; bput 8 8 (m5t_supplemental x);;
   bput 8 3 (m5t_nav x);; bput 8 5 (m5t_merit x);; wret tt)%write.
Definition p_cm5t : bitparser Mode5Transponder :=
  (s <- p_word 16 m_m5t_status 0;; p <- btake 16;; f <- btake 32;; e <- p_word 16 m_mode1 0;; o <- btake 16;; d <- p_word 8 m_supplemental 0;; n <- btake 3;; g <- btake 5;;
   pret (MkM5T s p f e o d n g))%parse.
Definition w_cm5 (m : mode) (b : CMode5BasicData) : BW := match b with CM5Interrogator x => w_cm5i m x | CM5Transponder x => w_cm5t x end.
Definition p_cm5 (t : Z) : bitparser CMode5BasicData :=
  if is_transponder t then (x <- p_cm5t;; pret (CM5Transponder x))%parse
  else if is_interrogator t then (x <- p_cm5i;; pret (CM5Interrogator x))%parse
  else pret (CM5Transponder default_m5t).
Definition len_cm5 (b : CMode5BasicData) : Z := match b with CM5Interrogator x => len_cm5i x | CM5Transponder _ => 112 end.
Definition fits_CMode5 (b : CMode5BasicData) : Prop := match b with
  | CM5Interrogator x => ub 8 (cm5i_status x) /\ ub 32 (cm5i_formats x) /\ fits_CEntityId (cm5i_entity x)
  | CM5Transponder x => ub 16 (m5t_status x) /\ ub 16 (m5t_pin x) /\ ub 32 (m5t_formats x) /\ ub 16 (m5t_mode1 x) /\ ub 16 (m5t_origin x) /\ ub 8 (m5t_supplemental x) /\
      ub 3 (m5t_nav x) /\ ub 5 (m5t_merit x) end.
(** the system type announces the kind of basic data, and the statuses only use defined bits *)
Definition cm5_ok (t : Z) (b : CMode5BasicData) : Prop := match b with
  | CM5Interrogator x => is_interrogator t = true /\ bits_ok m_m5i_status 0 (cm5i_status x)
  | CM5Transponder x => is_transponder t = true /\ bits_ok m_m5t_status 0 (m5t_status x) /\ bits_ok m_mode1 0 (m5t_mode1 x) /\ bits_ok m_supplemental 0 (m5t_supplemental x) end.
Lemma interrogator_not_transponder t : is_interrogator t = true -> is_transponder t = false.
Proof.
  unfold is_interrogator, is_transponder. rewrite !orb_true_iff, !Z.eqb_eq. intros [[[[-> | ->] | ->] | ->] | ->]; reflexivity.
Qed.
Lemma BRT_cm5 m t b : fits_CMode5 b -> cm5_ok t b -> BRT (w_cm5 m b) (p_cm5 t) b (len_cm5 b).
Proof.
  destruct b as [x|x]; unfold fits_CMode5, cm5_ok, w_cm5, p_cm5, len_cm5.
  - intros (H1 & H2 & H3) (Hi & Hs). rewrite (interrogator_not_transponder t Hi), Hi. eapply BRT_map; [|reflexivity].
    destruct x as [v1 v2 v3]. unfold w_cm5i, p_cm5i, len_cm5i. cbn [cm5i_status cm5i_formats cm5i_entity] in *. brt.
  - intros (H1 & H2 & H3 & H4 & H5 & H6 & H7 & H8) (Ht & B1 & B2 & B3). rewrite Ht. eapply BRT_map; [|reflexivity].
    destruct x as [v1 v2 v3 v4 v5 v6 v7 v8]. unfold w_cm5t, p_cm5t. cbn [m5t_status m5t_pin m5t_formats m5t_mode1 m5t_origin m5t_supplemental m5t_nav m5t_merit] in *. brt.
Qed.
Lemma BLen_cm5 m b : fits_CMode5 b -> BLen (w_cm5 m b) (len_cm5 b).
Proof.
  destruct b as [x|x]; unfold fits_CMode5, w_cm5, len_cm5.
  - intros (H1 & H2 & H3). unfold w_cm5i, len_cm5i. eapply BLen_conv; [repeat first [apply BLen_ret|apply BLen_put; lia|eapply BLen_of, BRT_ceid; exact H3|eapply BLen_bind]|lia].
  - intros _. unfold w_cm5t. eapply BLen_conv; [repeat first [apply BLen_ret|apply BLen_put; lia|eapply BLen_bind]|lia].
Qed.
Lemma BExt_cm5 t : BExt (p_cm5 t).
Proof. unfold p_cm5, p_cm5t, p_cm5i. destruct (is_transponder t), (is_interrogator t); bext. Qed.
Lemma BSafe_cm5 t : BSafe (p_cm5 t) (fun _ => True).
Proof.
  assert (BSafe p_cm5t (fun _ => True)) as T by (unfold p_cm5t; bsafe; exact I). assert (BSafe p_cm5i (fun _ => True)) as N by (unfold p_cm5i; bsafe; exact I).
  unfold p_cm5. destruct (is_transponder t), (is_interrogator t); try (now apply BSafe_ret); (eapply BSafe_bind; [eassumption|intros; now apply BSafe_ret]).
Qed.
Global Hint Resolve BExt_cm5 : bext.
Global Hint Resolve BSafe_cm5 : bsafe.

(** Mode S basic data: model.rs:264-297, writer.rs:235-272, parser.rs:318-398; the identification has a 4-bit length *)
Definition w_cmsi (x : ModeSInterrogator) : BW := (bput 8 8 (msi_status x);; bput 8 8 (msi_levels x);; wret tt)%write.
Definition p_cmsi : bitparser ModeSInterrogator := (s <- p_word 8 m_msi_status 4;; l <- p_word 8 m_levels 4;; pret (MkMSI s l))%parse.
Definition w_cmst (x : ModeSTransponder) : BW :=
  (bput 16 16 (mst_status x);; bput 8 8 (mst_levels x);; bput 8 3 (mst_domain x);; bput 64 4 (zlen (mst_id x));; bw_list (fun a => bput 8 8 a) (mst_id x);;
   bput 32 32 (mst_address x);; bput 8 3 (mst_idtype x);; bput 8 8 (mst_dap x);; bput 16 16 (mst_altitude x);; bput 8 8 (mst_capability x);; wret tt)%write.
Definition p_cmst : bitparser ModeSTransponder :=
  (s <- p_word 16 m_mst_status 0;; l <- p_word 8 m_levels 4;; d <- btake 3;; n <- btake 4;; i <- count (btake 8) n;; a <- btake 32;; t <- btake 3;; p <- p_word 8 m_dap 8;;
   h <- p_word 16 m_altitude 0;; c <- btake 8;; pret (MkMST s l d (sanitize_marking i) a t p h c))%parse.
Definition w_cms (b : ModeSBasicData) : BW := match b with MSInterrogator x => w_cmsi x | MSTransponder x => w_cmst x end.
Definition p_cms (t : Z) : bitparser ModeSBasicData :=
  if is_transponder t then (x <- p_cmst;; pret (MSTransponder x))%parse
  else if is_interrogator t then (x <- p_cmsi;; pret (MSInterrogator x))%parse
  else pret (MSTransponder default_mst).
Definition len_cms (b : ModeSBasicData) : Z := match b with MSInterrogator _ => 16 | MSTransponder x => 98 + 8 * zlen (mst_id x) end.
Definition fits_cModeS (b : ModeSBasicData) : Prop := match b with
  | MSInterrogator x => ub 8 (msi_status x) /\ ub 8 (msi_levels x)
  | MSTransponder x => ub 16 (mst_status x) /\ ub 8 (mst_levels x) /\ ub 3 (mst_domain x) /\ Forall (ub 8) (mst_id x) /\ zlen (mst_id x) <= 15 /\ ub 32 (mst_address x) /\
      ub 3 (mst_idtype x) /\ ub 8 (mst_dap x) /\ ub 16 (mst_altitude x) /\ ub 8 (mst_capability x) end.
Definition cms_ok (t : Z) (b : ModeSBasicData) : Prop := match b with
  | MSInterrogator x => is_interrogator t = true /\ bits_ok m_msi_status 4 (msi_status x) /\ bits_ok m_levels 4 (msi_levels x)
  | MSTransponder x => is_transponder t = true /\ bits_ok m_mst_status 0 (mst_status x) /\ bits_ok m_levels 4 (mst_levels x) /\ bits_ok m_dap 8 (mst_dap x) /\
      bits_ok m_altitude 0 (mst_altitude x) /\ sanitize_marking (mst_id x) = mst_id x end.
Lemma BRT_cms t b : fits_cModeS b -> cms_ok t b -> BRT (w_cms b) (p_cms t) b (len_cms b).
Proof.
  destruct b as [x|x]; unfold fits_cModeS, cms_ok, w_cms, p_cms, len_cms.
  - intros (H1 & H2) (Hi & B1 & B2). rewrite (interrogator_not_transponder t Hi), Hi. eapply BRT_map; [|reflexivity].
    destruct x as [v1 v2]. unfold w_cmsi, p_cmsi. cbn [msi_status msi_levels] in *. brt.
  - destruct x as [s l d i a t' p h c]. cbn [mst_status mst_levels mst_domain mst_id mst_address mst_idtype mst_dap mst_altitude mst_capability].
    intros (H1 & H2 & H3 & H4 & H5 & H6 & H7 & H8 & H9 & H10) (Ht & B1 & B2 & B3 & B4 & B5). rewrite Ht. eapply BRT_map; [|reflexivity].
    unfold w_cmst, p_cmst. cbn [mst_status mst_levels mst_domain mst_id mst_address mst_idtype mst_dap mst_altitude mst_capability]. pose proof (zlen_nonneg i). rewrite Forall_forall in H4.
    eapply BRT_conv; [do 3 brt_step; eapply BRT_bind; [apply BRT_put; [lia|unfold ub; change (2 ^ 4) with 16; lia]|cbv beta];
      eapply BRT_bind; [apply BRT_list with (len := fun _ => 8); [reflexivity|intros; apply BRT_put; [lia|auto]]|cbv beta]; repeat brt_step|congruence|].
    rewrite (zsum_const (fun _ => 8) 8) by reflexivity. lia.
Qed.
Lemma BLen_cms b : BLen (w_cms b) (len_cms b).
Proof.
  destruct b as [x|x]; unfold w_cms, len_cms.
  - unfold w_cmsi. eapply BLen_conv; [repeat first [apply BLen_ret|apply BLen_put; lia|eapply BLen_bind]|lia].
  - unfold w_cmst. eapply BLen_conv; [repeat first [apply BLen_ret|apply BLen_put; lia|apply BLen_list with (len := fun _ => 8); intros; apply BLen_put; lia|eapply BLen_bind]|].
    rewrite (zsum_const (fun _ => 8) 8) by reflexivity. lia.
Qed.
Lemma BExt_cms t : BExt (p_cms t).
Proof. unfold p_cms, p_cmst, p_cmsi. destruct (is_transponder t), (is_interrogator t); bext. Qed.
Lemma BSafe_cms t : BSafe (p_cms t) (fun _ => True).
Proof.
  assert (BSafe p_cmst (fun _ => True)) as T by (unfold p_cmst; bsafe; exact I). assert (BSafe p_cmsi (fun _ => True)) as N by (unfold p_cmsi; bsafe; exact I).
  unfold p_cms. destruct (is_transponder t), (is_interrogator t); try (now apply BSafe_ret); (eapply BSafe_bind; [eassumption|intros; now apply BSafe_ret]).
Qed.
Global Hint Resolve BExt_cms : bext.
Global Hint Resolve BSafe_cms : bsafe.

(** ** Layers *)
(** Layer 2: model.rs:124-141, writer.rs:97-110, parser.rs:133-156. The length in the layer header is the header's own 26 bits plus the
    record length, which already counts the header; the header's own length field is not used. *)
Record CIffLayer2 := MkCIffLayer2 { cl2_header : CLayerHeader; cl2_beam : CBeamData; cl2_op1 : Z; cl2_op2 : Z; cl2_params : list CIffParameter }.
Definition len_cl2 (x : CIffLayer2) : Z := 51 + len_cbeam_data (cl2_beam x) + zsum (map len_cip (cl2_params x)).
Definition bits_cl2 (x : CIffLayer2) : Z := 51 + len_cbeam_data (img_cbeam_data (cl2_beam x)) + zsum (map len_cip (cl2_params x)).
Definition w_cl2 (m : mode) (x : CIffLayer2) : BW :=
  (bput 64 1 1;; w_clayer_header (len_cl2 x) (cl2_header x);; w_cbeam_data m (cl2_beam x);; bput 8 8 (cl2_op1 x);; bput 8 8 (cl2_op2 x);; bput 64 8 (zlen (cl2_params x));;
   bw_list (fun a => w_cip m a) (cl2_params x);; wret tt)%write.
Definition p_cl2 : bitparser CIffLayer2 :=
  (_ <- btake 1;; h <- p_clayer_header;; b <- p_cbeam_data;; o1 <- btake 8;; o2 <- btake 8;; n <- btake 8;; l <- count p_cip n;; pret (MkCIffLayer2 h b o1 o2 l))%parse.
Definition set_clh (h : CLayerHeader) (n : Z) : CLayerHeader := MkCLayerHeader (clh_number h) (clh_info h) n.
Definition img_cl2 (x : CIffLayer2) : CIffLayer2 := MkCIffLayer2 (set_clh (cl2_header x) (26 + len_cl2 x)) (img_cbeam_data (cl2_beam x)) (cl2_op1 x) (cl2_op2 x) (cl2_params x).
Definition fits_clh (h : CLayerHeader) : Prop := ub 4 (clh_number h) /\ ub 8 (clh_info h).
Definition fits_CIffLayer2 x := fits_clh (cl2_header x) /\ 26 + len_cl2 x < 16384 /\ fits_CBeamData (cl2_beam x) /\ ub 8 (cl2_op1 x) /\ ub 8 (cl2_op2 x) /\
  Forall fits_CIffParameter (cl2_params x) /\ zlen (cl2_params x) <= 255.
Lemma BRT_set_clh h n : fits_clh h -> 0 <= n -> 26 + n < 16384 -> BRT (w_clayer_header n h) p_clayer_header (set_clh h (26 + n)) 26.
Proof.
  intros (H1 & H2) H3 H4. assert (E : w_clayer_header n h = w_clayer_header n (set_clh h (26 + n))) by (destruct h; reflexivity). rewrite E.
  apply BRT_clayer_header; [|reflexivity]. destruct h as [h1 h2 h3]. unfold fits_CLayerHeader, set_clh. cbn [clh_number clh_info clh_length] in *. unfold ub in *. change (2 ^ 14) with 16384. lia.
Qed.
Lemma BLen_clh h n : BLen (w_clayer_header n h) 26.
Proof. unfold w_clayer_header. eapply BLen_conv; [repeat first [apply BLen_ret|apply BLen_put; lia|eapply BLen_bind]|lia]. Qed.
Lemma len_svint13_pos v : 0 <= len_svint13 v.
Proof. unfold len_svint13, len_vint, svint13_bits. destruct (svint13_class v =? 0), (svint13_class v =? 1), (svint13_class v =? 2); lia. Qed.
Lemma len_cbeam_data_pos b : 0 <= len_cbeam_data b.
Proof.
  unfold len_cbeam_data. pose proof (len_svint13_pos (cbd_az_center b)). pose proof (len_svint13_pos (cbd_az_sweep b)).
  pose proof (len_svint13_pos (cbd_el_center b)). pose proof (len_svint13_pos (cbd_el_sweep b)). lia.
Qed.
Lemma zsum_nonneg l : Forall (fun a => 0 <= a) l -> 0 <= zsum l.
Proof. induction 1; cbn [zsum]; lia. Qed.
Lemma BRT_cl2 m x : fits_CIffLayer2 x -> BRT (w_cl2 m x) p_cl2 (img_cl2 x) (bits_cl2 x).
Proof.
  intros (H1 & H2 & H3 & H4 & H5 & H6 & H7). pose proof (zlen_nonneg (cl2_params x)) as Hn. pose proof (len_cbeam_data_pos (cl2_beam x)). rewrite Forall_forall in H6.
  assert (0 <= len_cl2 x) by (unfold len_cl2; rewrite (zsum_const len_cip 86) by reflexivity; lia).
  unfold w_cl2, p_cl2, bits_cl2, img_cl2.
  eapply BRT_conv; [eapply BRT_bind; [apply BRT_put; [lia|unfold ub; cbn; lia]|cbv beta]; eapply BRT_bind; [apply BRT_set_clh; [exact H1|lia|exact H2]|cbv beta]; do 3 brt_step;
    eapply BRT_bind; [apply BRT_put; [lia|unfold ub; change (2 ^ 8) with 256; lia]|cbv beta];
    eapply BRT_bind; [apply BRT_list with (len := len_cip); [reflexivity|intros; apply BRT_cip; auto]|cbv beta]; apply BRT_ret|reflexivity|lia].
Qed.
Lemma BExt_cl2 : BExt p_cl2.
Proof. unfold p_cl2. bext. Qed.
Lemma BSafe_cl2 : BSafe p_cl2 (fun _ => True).
Proof. unfold p_cl2. bsafe. exact I. Qed.

(** Layer 3: model.rs:160-178, writer.rs:132-147, parser.rs:189-211 *)
Record CIffLayer3 := MkCIffLayer3 { cl3_header : CLayerHeader; cl3_site : Z; cl3_app : Z; cl3_basic : CMode5BasicData; cl3_records : list IffDataRecord }.
Definition len_cl3 (x : CIffLayer3) : Z := 27 + len_uvint16 (cl3_site x) + len_uvint16 (cl3_app x) + len_cm5 (cl3_basic x) + bits_cidrs (cl3_records x).
Definition w_cl3 (m : mode) (x : CIffLayer3) : BW :=
  (bput 8 1 (Z.b2z (nonempty (cl3_records x)));; w_clayer_header (len_cl3 x) (cl3_header x);; w_uvint16 (cl3_site x);; w_uvint16 (cl3_app x);; w_cm5 m (cl3_basic x);; w_cidrs (cl3_records x);; wret tt)%write.
Definition p_cl3 (t : Z) : bitparser CIffLayer3 :=
  (r <- bbool;; h <- p_clayer_header;; s <- p_uvint16;; a <- p_uvint16;; b <- p_cm5 t;; l <- p_cidrs r;; pret (MkCIffLayer3 h s a b l))%parse.
Definition img_cl3 (x : CIffLayer3) : CIffLayer3 := MkCIffLayer3 (set_clh (cl3_header x) (26 + len_cl3 x)) (cl3_site x) (cl3_app x) (cl3_basic x) (cl3_records x).
Definition fits_CIffLayer3 x := fits_clh (cl3_header x) /\ 26 + len_cl3 x < 16384 /\ ub 16 (cl3_site x) /\ ub 16 (cl3_app x) /\ fits_CMode5 (cl3_basic x) /\ fits_cidrs (cl3_records x).
Lemma len_cidrs_nonneg l : 0 <= bits_cidrs l.
Proof.
  unfold bits_cidrs. assert (0 <= zsum (map len_cidr l)); [|destruct (nonempty l); lia].
  apply zsum_nonneg, Forall_forall. intros a (y & <- & _)%in_map_iff. unfold len_cidr. pose proof (zlen_nonneg (idr_fields y)). lia.
Qed.
Lemma len_uvint16_pos v : 0 <= len_uvint16 v.
Proof. unfold len_uvint16, len_vint, uvint16_bits. destruct (uvint16_class v =? 0), (uvint16_class v =? 1), (uvint16_class v =? 2); lia. Qed.
Lemma len_cm5_pos b : 0 <= len_cm5 b.
Proof. destruct b as [x|x]; unfold len_cm5, len_cm5i, len_ceid; [|lia]. pose proof (len_uvint16_pos (CEntityId_site (cm5i_entity x))). pose proof (len_uvint16_pos (CEntityId_app (cm5i_entity x))). pose proof (len_uvint16_pos (CEntityId_entity (cm5i_entity x))). lia. Qed.
Lemma BRT_cl3 m t x : fits_CIffLayer3 x -> cm5_ok t (cl3_basic x) -> BRT (w_cl3 m x) (p_cl3 t) (img_cl3 x) (len_cl3 x).
Proof.
  intros (H1 & H2 & H3 & H4 & H5 & H6) Hok. pose proof (len_cidrs_nonneg (cl3_records x)). pose proof (len_uvint16_pos (cl3_site x)). pose proof (len_uvint16_pos (cl3_app x)). pose proof (len_cm5_pos (cl3_basic x)).
  assert (0 <= len_cl3 x) by (unfold len_cl3; lia).
  unfold w_cl3, p_cl3, img_cl3.
  eapply BRT_conv; [brt_step; eapply BRT_bind; [apply BRT_set_clh; [exact H1|lia|exact H2]|cbv beta]; do 2 brt_step;
    eapply BRT_bind; [apply BRT_cm5; assumption|cbv beta]; eapply BRT_bind; [apply BRT_cidrs; assumption|cbv beta]; apply BRT_ret|reflexivity|].
  unfold len_cl3. lia.
Qed.
Lemma BLen_cl3 m x : fits_CIffLayer3 x -> BLen (w_cl3 m x) (len_cl3 x).
Proof.
  intros (H1 & H2 & H3 & H4 & H5 & H6). unfold w_cl3.
  eapply BLen_conv; [repeat first [apply BLen_ret|apply BLen_put; lia|apply BLen_clh|eapply BLen_of, BRT_uvint16; eassumption|apply BLen_cm5; assumption|apply BLen_cidrs|eapply BLen_bind]|unfold len_cl3; lia].
Qed.
Lemma BExt_cl3 t : BExt (p_cl3 t).
Proof. unfold p_cl3. bext. Qed.
Lemma BSafe_cl3 t : BSafe (p_cl3 t) (fun _ => True).
Proof. unfold p_cl3. bsafe. exact I. Qed.

(** Layer 4: model.rs:186-204, writer.rs:149-165, parser.rs:294-316. The declared length counts the 5-bit record count even without records. *)
Record CIffLayer4 := MkCIffLayer4 { cl4_header : CLayerHeader; cl4_site : Z; cl4_app : Z; cl4_basic : ModeSBasicData; cl4_records : list IffDataRecord }.
Definition len_cl4 (x : CIffLayer4) : Z := 32 + len_uvint16 (cl4_site x) + len_uvint16 (cl4_app x) + len_cms (cl4_basic x) + zsum (map len_cidr (cl4_records x)).
Definition bits_cl4 (x : CIffLayer4) : Z := 27 + len_uvint16 (cl4_site x) + len_uvint16 (cl4_app x) + len_cms (cl4_basic x) + bits_cidrs (cl4_records x).
Definition w_cl4 (x : CIffLayer4) : BW :=
  (bput 8 1 (Z.b2z (nonempty (cl4_records x)));; w_clayer_header (len_cl4 x) (cl4_header x);; w_uvint16 (cl4_site x);; w_uvint16 (cl4_app x);; w_cms (cl4_basic x);; w_cidrs (cl4_records x);; wret tt)%write.
Definition p_cl4 (t : Z) : bitparser CIffLayer4 :=
  (r <- bbool;; h <- p_clayer_header;; s <- p_uvint16;; a <- p_uvint16;; b <- p_cms t;; l <- p_cidrs r;; pret (MkCIffLayer4 h s a b l))%parse.
Definition img_cl4 (x : CIffLayer4) : CIffLayer4 := MkCIffLayer4 (set_clh (cl4_header x) (26 + len_cl4 x)) (cl4_site x) (cl4_app x) (cl4_basic x) (cl4_records x).
Definition fits_CIffLayer4 x := fits_clh (cl4_header x) /\ 26 + len_cl4 x < 16384 /\ ub 16 (cl4_site x) /\ ub 16 (cl4_app x) /\ fits_cModeS (cl4_basic x) /\ fits_cidrs (cl4_records x).
Lemma len_cms_pos b : 0 <= len_cms b.
Proof. destruct b as [x|x]; unfold len_cms; [lia|]. pose proof (zlen_nonneg (mst_id x)). lia. Qed.
Lemma sum_cidr_pos l : 0 <= zsum (map len_cidr l).
Proof. apply zsum_nonneg, Forall_forall. intros a (y & <- & _)%in_map_iff. unfold len_cidr. pose proof (zlen_nonneg (idr_fields y)). lia. Qed.
Lemma BRT_cl4 t x : fits_CIffLayer4 x -> cms_ok t (cl4_basic x) -> BRT (w_cl4 x) (p_cl4 t) (img_cl4 x) (bits_cl4 x).
Proof.
  intros (H1 & H2 & H3 & H4 & H5 & H6) Hok. pose proof (sum_cidr_pos (cl4_records x)). pose proof (len_uvint16_pos (cl4_site x)). pose proof (len_uvint16_pos (cl4_app x)). pose proof (len_cms_pos (cl4_basic x)).
  assert (0 <= len_cl4 x) by (unfold len_cl4; lia).
  unfold w_cl4, p_cl4, img_cl4.
  eapply BRT_conv; [brt_step; eapply BRT_bind; [apply BRT_set_clh; [exact H1|lia|exact H2]|cbv beta]; do 2 brt_step;
    eapply BRT_bind; [apply BRT_cms; assumption|cbv beta]; eapply BRT_bind; [apply BRT_cidrs; assumption|cbv beta]; apply BRT_ret|reflexivity|].
  unfold bits_cl4. lia.
Qed.
Lemma BLen_cl4 x : fits_CIffLayer4 x -> BLen (w_cl4 x) (bits_cl4 x).
Proof.
  intros (H1 & H2 & H3 & H4 & H5 & H6). unfold w_cl4.
  eapply BLen_conv; [repeat first [apply BLen_ret|apply BLen_put; lia|apply BLen_clh|eapply BLen_of, BRT_uvint16; eassumption|apply BLen_cms|apply BLen_cidrs|eapply BLen_bind]|unfold bits_cl4; lia].
Qed.
Lemma BExt_cl4 t : BExt (p_cl4 t).
Proof. unfold p_cl4. bext. Qed.
Lemma BSafe_cl4 t : BSafe (p_cl4 t) (fun _ => True).
Proof. unfold p_cl4. bsafe. exact I. Qed.

(** Layer 5: model.rs:206-219, writer.rs:167-183, parser.rs:400-429. The applicable layers are one octet, written in 6 bits. *)
Record CIffLayer5 := MkCIffLayer5 { cl5_header : CLayerHeader; cl5_site : Z; cl5_app : Z; cl5_layers : Z; cl5_category : Z; cl5_records : list IffDataRecord }.
Definition len_cl5 (x : CIffLayer5) : Z := 41 + len_uvint16 (cl5_site x) + len_uvint16 (cl5_app x) + zsum (map len_cidr (cl5_records x)).
Definition bits_cl5 (x : CIffLayer5) : Z := 36 + len_uvint16 (cl5_site x) + len_uvint16 (cl5_app x) + bits_cidrs (cl5_records x).
Definition w_cl5 (x : CIffLayer5) : BW :=
  (bput 8 1 (Z.b2z (nonempty (cl5_records x)));; w_clayer_header (len_cl5 x) (cl5_header x);; w_uvint16 (cl5_site x);; w_uvint16 (cl5_app x);;
   bput 8 6 (cl5_layers x);; bput 8 3 (cl5_category x);; w_cidrs (cl5_records x);; wret tt)%write.
Definition p_cl5 : bitparser CIffLayer5 :=
  (r <- bbool;; h <- p_clayer_header;; s <- p_uvint16;; a <- p_uvint16;; b <- p_word 6 m_layers 0;; c <- btake 3;; l <- p_cidrs r;; pret (MkCIffLayer5 h s a b c l))%parse.
Definition img_cl5 (x : CIffLayer5) : CIffLayer5 := MkCIffLayer5 (set_clh (cl5_header x) (26 + len_cl5 x)) (cl5_site x) (cl5_app x) (cl5_layers x) (cl5_category x) (cl5_records x).
Definition fits_CIffLayer5 x := fits_clh (cl5_header x) /\ 26 + len_cl5 x < 16384 /\ ub 16 (cl5_site x) /\ ub 16 (cl5_app x) /\ ub 6 (cl5_layers x) /\ ub 3 (cl5_category x) /\ fits_cidrs (cl5_records x).
Lemma bits_ok_6 v : ub 6 v -> bits_ok m_layers 0 v.
Proof. intros H. unfold bits_ok, bits_of, m_layers. rewrite Z.lor_0_r. change 127 with (Z.ones 7). rewrite Z.land_ones by lia. apply Z.mod_small. unfold ub in H. change (2 ^ 6) with 64 in H. change (2 ^ 7) with 128. lia. Qed.
Lemma BRT_cl5 x : fits_CIffLayer5 x -> BRT (w_cl5 x) p_cl5 (img_cl5 x) (bits_cl5 x).
Proof.
  intros (H1 & H2 & H3 & H4 & H5 & H6 & H7). pose proof (sum_cidr_pos (cl5_records x)). pose proof (len_uvint16_pos (cl5_site x)). pose proof (len_uvint16_pos (cl5_app x)).
  assert (0 <= len_cl5 x) by (unfold len_cl5; lia). pose proof (bits_ok_6 _ H5).
  unfold w_cl5, p_cl5, img_cl5.
  eapply BRT_conv; [brt_step; eapply BRT_bind; [apply BRT_set_clh; [exact H1|lia|exact H2]|cbv beta]; do 4 brt_step;
    eapply BRT_bind; [apply BRT_cidrs; assumption|cbv beta]; apply BRT_ret|reflexivity|].
  unfold bits_cl5. lia.
Qed.
Lemma BExt_cl5 : BExt p_cl5.
Proof. unfold p_cl5. bext. Qed.
Lemma BSafe_cl5 : BSafe p_cl5 (fun _ => True).
Proof. unfold p_cl5. bsafe. exact I. Qed.
Global Hint Resolve BExt_cl2 BExt_cl3 BExt_cl4 BExt_cl5 : bext.
Global Hint Resolve BSafe_cl2 BSafe_cl3 BSafe_cl4 BSafe_cl5 : bsafe.

(** ** The body: model.rs:10-65, parser.rs:17-69, writer.rs:9-45 *)
Record CIff := MkCIff { CIff_units : Z; CIff_full : bool; CIff_emitting : CEntityId; CIff_event : option CEntityId; CIff_antenna : option CEntityCoordinateVector;
  CIff_system : option SystemId; CIff_designator : Z; CIff_specific : option Z; CIff_data : CFundOpData;
  CIff_layer2 : option CIffLayer2; CIff_layer3 : option CIffLayer3; CIff_layer4 : option CIffLayer4; CIff_layer5 : option CIffLayer5 }.
Definition fields_ciff (x : CIff) : Z :=
  Z.lor (fbit (is_some (CIff_event x)) 2048) (Z.lor (fbit (is_some (CIff_antenna x)) 1024) (Z.lor (fbit (is_some (CIff_system x)) 512) (Z.lor (fbit (is_some (CIff_specific x)) 256)
  (fields_cfo (CIff_data x))))).
Definition w_ciff (m : mode) (x : CIff) : BW :=
  (bput 16 12 (fields_ciff x);; bput 8 1 (CIff_units x);; bput 8 1 (Z.b2z (CIff_full x));; w_ceid m (CIff_emitting x);; w_opt (fun a => w_ceid m a) (CIff_event x);;
   w_opt (fun a => w_cecv m a) (CIff_antenna x);; w_opt w_csysid (CIff_system x);; bput 8 8 (CIff_designator x);; w_o8 (CIff_specific x);; w_cfo (CIff_data x);;
   w_opt (w_cl2 m) (CIff_layer2 x);; w_opt (w_cl3 m) (CIff_layer3 x);; w_opt w_cl4 (CIff_layer4 x);; w_opt w_cl5 (CIff_layer5 x);; wret tt)%write.
(** the type of a system id that is absent is the default, 0 *)
Definition sys_type (s : option SystemId) : Z := match s with Some s => si_type s | None => 0 end.
Definition p_ciff : bitparser CIff :=
  (fp <- btake 12;; units <- btake 1;; full <- bbool;; emitting <- p_ceid;; event <- p_when fp 2048 p_ceid;; antenna <- p_when fp 1024 p_cecv;;
   system <- p_when fp 512 p_csysid;; designator <- btake 8;; specific <- p_when fp 256 (btake 8);; data <- p_cfo fp;;
   l2 <- p_if (Z.testbit (cfo_layers data) 5) p_cl2;; l3 <- p_if (Z.testbit (cfo_layers data) 4) (p_cl3 (sys_type system));;
   l4 <- p_if (Z.testbit (cfo_layers data) 3) (p_cl4 (sys_type system));; l5 <- p_if (Z.testbit (cfo_layers data) 2) p_cl5;;
   pret (MkCIff units full emitting event antenna system designator specific data l2 l3 l4 l5))%parse.
(** the declared body length: body_length_bits *)
Definition len_ciff (x : CIff) : Z :=
  22 + len_ceid (CIff_emitting x) + opt_len len_ceid (CIff_event x) + opt_len len_cecv (CIff_antenna x) + opt_len (fun _ => 20) (CIff_system x) + ol 8 (CIff_specific x) +
  len_cfo (CIff_data x) + opt_len len_cl2 (CIff_layer2 x) + opt_len len_cl3 (CIff_layer3 x) + opt_len len_cl4 (CIff_layer4 x) + opt_len len_cl5 (CIff_layer5 x).
(** the bits the writer emits *)
Definition bits_ciff (x : CIff) : Z :=
  22 + len_ceid (CIff_emitting x) + opt_len len_ceid (CIff_event x) + opt_len len_cecv (CIff_antenna x) + opt_len (fun _ => 20) (CIff_system x) + ol 8 (CIff_specific x) +
  len_cfo (CIff_data x) + opt_len bits_cl2 (CIff_layer2 x) + opt_len len_cl3 (CIff_layer3 x) + opt_len bits_cl4 (CIff_layer4 x) + opt_len bits_cl5 (CIff_layer5 x).
Definition img_ciff (x : CIff) : CIff :=
  MkCIff (CIff_units x) (CIff_full x) (CIff_emitting x) (CIff_event x) (CIff_antenna x) (CIff_system x) (CIff_designator x) (CIff_specific x) (CIff_data x)
    (option_map img_cl2 (CIff_layer2 x)) (option_map img_cl3 (CIff_layer3 x)) (option_map img_cl4 (CIff_layer4 x)) (option_map img_cl5 (CIff_layer5 x)).
(** every field fits its field on the wire *)
Definition wfits_CIff (x : CIff) : Prop :=
  ub 1 (CIff_units x) /\ fits_CEntityId (CIff_emitting x) /\ (forall a, CIff_event x = Some a -> fits_CEntityId a) /\ (forall a, CIff_antenna x = Some a -> fits_CEntityCoordinateVector a) /\
  (forall a, CIff_system x = Some a -> fits_cSystemId a) /\ ub 8 (CIff_designator x) /\ oub 8 (CIff_specific x) /\ fits_CFundOpData (CIff_data x) /\
  (forall a, CIff_layer2 x = Some a -> fits_CIffLayer2 a) /\ (forall a, CIff_layer3 x = Some a -> fits_CIffLayer3 a) /\ (forall a, CIff_layer4 x = Some a -> fits_CIffLayer4 a) /\
  (forall a, CIff_layer5 x = Some a -> fits_CIffLayer5 a).
(** and moreover the information layers name the layers that are there, and the system type, when it is there, the kinds of basic data *)
Definition fits_CIff (x : CIff) : Prop :=
  wfits_CIff x /\ bits_ok m_layers 0 (cfo_layers (CIff_data x)) /\
  is_some (CIff_layer2 x) = Z.testbit (cfo_layers (CIff_data x)) 5 /\ is_some (CIff_layer3 x) = Z.testbit (cfo_layers (CIff_data x)) 4 /\
  is_some (CIff_layer4 x) = Z.testbit (cfo_layers (CIff_data x)) 3 /\ is_some (CIff_layer5 x) = Z.testbit (cfo_layers (CIff_data x)) 2 /\
  (forall a, CIff_layer3 x = Some a -> cm5_ok (sys_type (CIff_system x)) (cl3_basic a)) /\
  (forall a, CIff_layer4 x = Some a -> cms_ok (sys_type (CIff_system x)) (cl4_basic a)).
Lemma BRT_ciff m x : fits_CIff x -> BRT (w_ciff m x) p_ciff (img_ciff x) (bits_ciff x).
Proof.
  intros ((H0 & H1 & H2 & H3 & H4 & H5 & H6 & H7 & H8 & H9 & H10 & H11) & Hl & L2 & L3 & L4 & L5 & M5 & MS).
  unfold w_ciff, p_ciff, bits_ciff, img_ciff, ol, w_o8, oub in *.
  assert (Hub : ub 12 (fields_ciff x)) by (unfold fields_ciff, fields_cfo; ub_word).
  assert (Hfp : cfo_fp (fields_ciff x) (CIff_data x)) by (unfold fields_ciff, fields_cfo, cfo_fp; repeat match goal with |- _ /\ _ => split end; fp_tac).
  assert (F1 : field_present (fields_ciff x) 2048 = is_some (CIff_event x)) by (unfold fields_ciff, fields_cfo; fp_tac).
  assert (F2 : field_present (fields_ciff x) 1024 = is_some (CIff_antenna x)) by (unfold fields_ciff, fields_cfo; fp_tac).
  assert (F3 : field_present (fields_ciff x) 512 = is_some (CIff_system x)) by (unfold fields_ciff, fields_cfo; fp_tac).
  assert (F4 : field_present (fields_ciff x) 256 = is_some (CIff_specific x)) by (unfold fields_ciff, fields_cfo; fp_tac).
  eapply BRT_conv; [|reflexivity|].
  { eapply BRT_bind; [apply BRT_put; [lia|exact Hub]|cbv beta]. do 3 brt_step.
    eapply BRT_bind; [apply (BRT_when (fun a => w_ceid m a) p_ceid len_ceid); [exact F1|intros; apply BRT_ceid; auto]|cbv beta].
    eapply BRT_bind; [apply (BRT_when (fun a => w_cecv m a) p_cecv len_cecv); [exact F2|intros; apply BRT_cecv; auto]|cbv beta].
    eapply BRT_bind; [apply (BRT_when w_csysid p_csysid (fun _ => 20)); [exact F3|intros; apply BRT_csysid; auto]|cbv beta].
    brt_step.
    eapply BRT_bind; [apply (BRT_when (fun a => bput 8 8 a) (btake 8) (fun _ => 8)); [exact F4|intros; apply BRT_put; [lia|auto]]|cbv beta].
    eapply BRT_bind; [apply BRT_cfo; assumption|cbv beta].
    eapply BRT_bind; [apply (BRT_if_img (w_cl2 m) p_cl2 img_cl2 bits_cl2); [now symmetry|intros; apply BRT_cl2; auto]|cbv beta].
    eapply BRT_bind; [apply (BRT_if_img (w_cl3 m) _ img_cl3 len_cl3); [now symmetry|intros; apply BRT_cl3; auto]|cbv beta].
    eapply BRT_bind; [apply (BRT_if_img w_cl4 _ img_cl4 bits_cl4); [now symmetry|intros; apply BRT_cl4; auto]|cbv beta].
    eapply BRT_bind; [apply (BRT_if_img w_cl5 _ img_cl5 bits_cl5); [now symmetry|intros; apply BRT_cl5; auto]|cbv beta].
    apply BRT_ret. }
  lia.
Qed.
(** the bits written, also when the reader would not understand them *)
Lemma BLen_ciff m x : wfits_CIff x -> BLen (w_ciff m x) (bits_ciff x).
Proof.
  intros (H0 & H1 & H2 & H3 & H4 & H5 & H6 & H7 & H8 & H9 & H10 & H11). unfold w_ciff, bits_ciff, ol, w_o8.
  eapply BLen_conv; [|].
  { eapply BLen_bind; [apply BLen_put; lia|]. eapply BLen_bind; [apply BLen_put; lia|]. eapply BLen_bind; [apply BLen_put; lia|].
    eapply BLen_bind; [eapply BLen_of, BRT_ceid; exact H1|].
    eapply BLen_bind; [apply BLen_opt with (len := len_ceid); intros; eapply BLen_of, BRT_ceid; auto|].
    eapply BLen_bind; [apply BLen_opt with (len := len_cecv); intros; eapply BLen_of, BRT_cecv; auto|].
    eapply BLen_bind; [apply BLen_opt with (len := fun _ => 20); intros; eapply BLen_of, BRT_csysid; auto|].
    eapply BLen_bind; [apply BLen_put; lia|]. eapply BLen_bind; [apply BLen_opt with (len := fun _ => 8); intros; apply BLen_put; lia|].
    eapply BLen_bind; [apply BLen_cfo|].
    eapply BLen_bind; [apply BLen_opt with (len := bits_cl2); intros; eapply BLen_of, BRT_cl2; auto|].
    eapply BLen_bind; [apply BLen_opt with (len := len_cl3); intros; apply BLen_cl3; auto|].
    eapply BLen_bind; [apply BLen_opt with (len := bits_cl4); intros; apply BLen_cl4; auto|].
    eapply BLen_bind; [apply BLen_opt with (len := bits_cl5); intros; eapply BLen_of, BRT_cl5; auto|].
    apply BLen_ret. }
  lia.
Qed.
Lemma BExt_ciff : BExt p_ciff.
Proof. unfold p_ciff. bext. Qed.
Lemma BSafe_ciff : BSafe p_ciff (fun _ => True).
Proof. unfold p_ciff. repeat (eapply BSafe_bind; [bsafe_atom|intros]). now apply BSafe_ret. Qed.
Global Hint Resolve BRT_ciff : brt.
Global Hint Resolve BExt_ciff : bext.
Global Hint Resolve BSafe_ciff : bsafe.

(** * Records shared by the PDUs: padding, datums, parameters, descriptors, record sets, markings *)
From Coq Require Import ZArith List Lia Bool.
From Verif Require Import Base Utf8 DisCommon DisLists DisEntity.
Import ListNotations. Open Scope Z_scope.

(** ** C16 *)
(*@C16
Padding [n] octets to a multiple of [k]: never fails, data plus padding is the record, the padding is shorter than [k],
the record is a multiple of [k], and no smaller multiple of [k] holds the data. *)
Lemma C16_padding_pf : forall n k, 0 <= n -> 0 < k -> exists pl, length_padded_to_num n k = Some pl /\
  pl_data pl = n /\ pl_data pl + pl_padding pl = pl_record pl /\ 0 <= pl_padding pl < k /\
  (exists q, pl_record pl = q * k) /\ (forall q, n <= q * k -> pl_record pl <= q * k).
Proof.
  intros n k Hn Hk. destruct (length_padded_spec n k Hn Hk) as (p & E & Hp & Hm).
  eexists. split; [exact E|]. cbn [pl_data pl_padding pl_record]. do 3 (split; [lia|]).
  pose proof (Z.div_mod (n + p) k) as Hd. rewrite Hm in Hd. set (q0 := (n + p) / k) in *.
  split; [exists q0; lia|]. intros q Hq. assert (n + p = k * q0) by lia. assert (q0 - 1 < q) by nia. nia.
Qed.
(*@C16
Alignment zero, the one input it cannot handle, panics. *)
Lemma C16_zero_alignment_pf : forall n, length_padded_to_num n 0 = None.
Proof. reflexivity. Qed.
(*@ex*)
Example C16_ex : length_padded_to_num 13 8 = Some (MkPadded 13 3 16) /\ length_padded_to_num 16 8 = Some (MkPadded 16 0 16) /\ length_padded_to_num 0 8 = Some (MkPadded 0 0 0).
Proof. repeat split; reflexivity. Qed.

(** ** C17 *)
(** The encoding of a variable datum prescribed by IEEE 1278.1-2012, 6.2.93: identifier,
    length in bits, value, zero octets up to the next multiple of eight. *)
Definition standard_variable_datum (d : VariableDatum) (pad : nat) : list Z :=
  be 4 (vd_id d) ++ be 4 (8 * zlen (vd_value d)) ++ vd_value d ++ repeat 0 pad.
Definition minimal_padding (n : Z) (pad : nat) : Prop := (pad < 8)%nat /\ (n + Z.of_nat pad) mod 8 = 0.

(*@C17
The parser reads the standard encoding of every datum whose length in bits fits 32 bits, whatever its length. *)
Lemma C17_parse_standard_pf : forall d pad rest, wf_VariableDatum d -> 8 * zlen (vd_value d) < 2 ^ 32 ->
  minimal_padding (zlen (vd_value d)) pad -> p_variable_datum (standard_variable_datum d pad ++ rest) = POk rest d.
Proof.
  intros d pad rest [Hi Hb] Hl [Hp Hm]. unfold standard_variable_datum, p_variable_datum, pbind, be_u32. rewrite <- !app_assoc.
  pose proof (zlen_nonneg (vd_value d)). change (2 ^ 32) with 4294967296 in Hl.
  replace (8 * zlen (vd_value d)) with (zlen (vd_value d) * 8) by lia.
  rewrite be_u_be by (unfold u32 in Hi; cbn; lia). rewrite be_u_be by (cbn; lia). rewrite Z.div_mul by lia. rewrite p_padded_ok by lia. cbn [pl_data pl_padding].
  rewrite take_app by reflexivity.
  rewrite <- (pad_to_spec (zlen (vd_value d)) (Z.of_nat pad) 8) by (lia || exact Hm).
  rewrite take_app by (unfold zlen; rewrite repeat_length; reflexivity). destruct d; reflexivity.
Qed.
(*@C17
For datums that are a multiple of eight octets the writer emits the standard encoding and reports its size, and the parser returns the datum. *)
Lemma C17_variable_datum_aligned_pf : forall m d, wf_VariableDatum d -> zlen (vd_value d) < 8184 -> zlen (vd_value d) mod 8 = 0 ->
  w_variable_datum m d = WOk (standard_variable_datum d 0) (8 + zlen (vd_value d)) /\
  zlen (standard_variable_datum d 0) = 8 + zlen (vd_value d) /\
  forall rest, p_variable_datum (standard_variable_datum d 0 ++ rest) = POk rest d.
Proof.
  intros m d Hw Hl Ha. split.
  - rewrite w_variable_datum_bytes by assumption. rewrite pad_to_aligned by (lia || assumption).
    unfold standard_variable_datum. rewrite Z.mul_0_r, Z.add_0_r. cbn [Z.to_nat repeat]. now rewrite (Z.mul_comm 8).
  - split.
    + unfold standard_variable_datum. rewrite !zlen_app, !be_zlen. change (zlen (repeat 0 0)) with 0. lia.
    + intros rest. apply C17_parse_standard_pf; [exact Hw| |split; [lia|now rewrite Z.add_0_r]].
      change (2 ^ 32) with 4294967296. lia.
Qed.
(*@C17
Refutation, for every other length: 64 times the padding is written, more octets than reported, so
that the next record is read from the wrong place. *)
Lemma C17_variable_datum_refuted_pf : forall m d, wf_VariableDatum d -> zlen (vd_value d) < 8184 -> zlen (vd_value d) mod 8 <> 0 ->
  exists pad bs n, minimal_padding (zlen (vd_value d)) pad /\
    bs = standard_variable_datum d (64 * pad) /\ w_variable_datum m d = WOk bs n /\ n = zlen (standard_variable_datum d pad) /\ n < zlen bs /\
    forall rest, p_variable_datum (bs ++ rest) = POk (repeat 0 (63 * pad) ++ rest) d.
Proof.
  intros m d Hw Hl Ha. set (l := zlen (vd_value d)) in *. pose proof (pad_to_bound l 8 ltac:(lia)) as Hb. pose proof (pad_to_total l 8 ltac:(lia)) as Ht.
  assert (Hz : pad_to l 8 <> 0) by (intros E; rewrite E, Z.add_0_r in Ht; contradiction).
  assert (Hm : minimal_padding l (Z.to_nat (pad_to l 8))) by (split; [lia|now rewrite Z2Nat.id by lia]).
  exists (Z.to_nat (pad_to l 8)), (standard_variable_datum d (64 * Z.to_nat (pad_to l 8))), (8 + l + pad_to l 8).
  split; [exact Hm|]. split; [reflexivity|].
  split.
  { rewrite w_variable_datum_bytes by assumption. fold l. unfold standard_variable_datum. fold l. rewrite (Z.mul_comm 8 l).
    replace (Z.to_nat (64 * pad_to l 8)) with (64 * Z.to_nat (pad_to l 8))%nat by lia. reflexivity. }
  assert (Hz2 : forall k, zlen (standard_variable_datum d k) = 8 + l + Z.of_nat k).
  { intros k. unfold standard_variable_datum. rewrite !zlen_app, !be_zlen. fold l. unfold zlen. rewrite repeat_length. lia. }
  rewrite !Hz2. split; [lia|]. split; [lia|]. intros rest.
  replace (64 * Z.to_nat (pad_to l 8))%nat with (Z.to_nat (pad_to l 8) + 63 * Z.to_nat (pad_to l 8))%nat by lia.
  unfold standard_variable_datum. rewrite repeat_app.
  replace ((be 4 (vd_id d) ++ be 4 (8 * zlen (vd_value d)) ++ vd_value d ++ repeat 0 (Z.to_nat (pad_to l 8)) ++ repeat 0 (63 * Z.to_nat (pad_to l 8))) ++ rest)
    with (standard_variable_datum d (Z.to_nat (pad_to l 8)) ++ (repeat 0 (63 * Z.to_nat (pad_to l 8)) ++ rest)) by (unfold standard_variable_datum; now rewrite <- !app_assoc).
  apply C17_parse_standard_pf; [exact Hw| |exact Hm]. change (2 ^ 32) with 4294967296. fold l. lia.
Qed.
(*@C17
Refutation of the reported size: for datums of 8184 octets and more that the length field still has room for, the
reported size is too small even when the datum is aligned. *)
Lemma C17_reported_size_refuted_pf : forall m d, wf_VariableDatum d -> 8192 <= zlen (vd_value d) < 2 ^ 29 -> zlen (vd_value d) mod 8 = 0 ->
  exists bs n, w_variable_datum m d = WOk bs n /\ zlen bs = 8 + zlen (vd_value d) /\ n < zlen bs.
Proof.
  intros m d [Hi Hb] Hl Ha. change (2 ^ 29) with 536870912 in Hl. unfold w_variable_datum. cbv zeta.
  rewrite w_padded_ok by lia. rewrite pad_to_8_64, (pad_to_aligned _ 8) by (lia || assumption). unfold wbind at 1. cbn [pl_record pl_padding].
  rewrite Z.mul_0_r, Z.add_0_r. pose proof (Z.mod_pos_bound (zlen (vd_value d) * 8) 65536 ltac:(lia)) as Hm.
  assert (Hq : 0 <= zlen (vd_value d) * 8 mod 65536 / 8 < 8192).
  { split; [apply Z.div_pos; lia|apply Z.div_lt_upper_bound; lia]. }
  unfold put_u32, put, put_slice, put_bytes, wbind. rewrite add16_ok by lia.
  do 2 eexists. split; [reflexivity|]. rewrite !zlen_app, !be_zlen. cbn [Z.to_nat Z.mul repeat]. split; [unfold zlen; cbn [length]; lia|].
  unfold zlen in *. cbn [length]. lia.
Qed.
(*@ex*)
Example C17_ex : let d := MkVariableDatum 7 [1; 2; 3; 4; 5] in
  wf_VariableDatum d /\ zlen (vd_value d) < 8184 /\ zlen (vd_value d) mod 8 <> 0 /\ minimal_padding (zlen (vd_value d)) 3 /\
  wf_VariableDatum (MkVariableDatum 7 [1; 2; 3; 4; 5; 6; 7; 8]).
Proof.
  cbv zeta. unfold wf_VariableDatum, minimal_padding, bytes, u32, u8. cbn [vd_id vd_value]. repeat split; try lia; try (vm_compute; discriminate); try (vm_compute; reflexivity);
  repeat constructor; lia.
Qed.

(** ** C18 *)
(** the parameter record type number written in the first octet *)
Definition vp_record_type (v : VariableParameter) : Z :=
  match v with VPArticulated _ => 0 | VPAttached _ => 1 | VPSeparation _ => 2 | VPEntityType _ => 3 | VPEntityAssociation _ => 4 | VPUnspecified t _ => t end.

(*@C18
Every variant is written as 16 octets, starts with its record type, and the size reported is 16. *)
Lemma C18_sixteen_octets_pf : forall m v, wf_VariableParameter v -> vp_canonical v ->
  exists bs, w_variable_parameter m v = WOk (vp_record_type v :: bs) 16 /\ zlen (vp_record_type v :: bs) = 16.
Proof.
  intros m v Hw Hc. destruct (w_vp_16 m v Hw Hc) as (bs & E & Hl).
  assert (exists t, bs = vp_record_type v :: t) as [t ->]; [|eauto].
  assert (Ht : u8 (vp_record_type v)) by (destruct v; cbn in *; unfold u8 in *; lia).
  assert (Hb : forall k, w_variable_parameter m v = wbind (put_u8 (vp_record_type v)) k -> exists t, bs = vp_record_type v :: t).
  { intros k Ek. rewrite Ek in E. unfold wbind, put_u8, put in E. destruct (k tt) as [b2 a|]; [|discriminate].
    assert (bs = be 1 (vp_record_type v) ++ b2) as -> by congruence. unfold u8 in Ht.
    assert (He : be 1 (vp_record_type v) = [(vp_record_type v / 1) mod 256]) by reflexivity.
    rewrite He, Z.div_1_r, Z.mod_small by lia. cbn [app]. eauto. }
  destruct v; (eapply Hb; reflexivity).
Qed.
(*@C18
Every variant but Separation is read back. (The five low bits of an articulated part's type code are the metric and the others
the class; an unspecified record has a type number of its own: [vp_canonical].) *)
Lemma C18_round_trip_pf : forall m v, wf_VariableParameter v -> vp_canonical v -> (forall x, v <> VPSeparation x) ->
  exists bs, w_variable_parameter m v = WOk bs 16 /\ zlen bs = 16 /\ forall rest, p_variable_parameter (bs ++ rest) = POk rest v.
Proof.
  intros m v Hw Hc Hn. destruct (RT_variable_parameter m v Hw Hc) as (bs & E & Hl & Hp); [destruct v; cbn; auto; eapply Hn; reflexivity|]. eauto.
Qed.
(*@C18
Refutation: no Separation record is read back: the parser takes 15 of its 16 octets. *)
Lemma C18_separation_refuted_pf : forall m x, wf_VariableParameter (VPSeparation x) ->
  exists bs last, w_variable_parameter m (VPSeparation x) = WOk (bs ++ [last]) 16 /\
  forall rest, exists y, p_variable_parameter (bs ++ [last] ++ rest) = POk (last :: rest) y.
Proof.
  intros m [r p [[s a] e] st n] Hw. cbn in Hw.
  set (b := match w_variable_parameter m (VPSeparation (MkSeparation r p (MkEntityId (MkSimulationAddress s a) e) st n)) with WOk b _ => b | _ => [] end).
  exists (removelast b), (nth 15 b 0). split; [reflexivity|]. intros rest. eexists. cbn. reflexivity.
Qed.
(*@C18
Refutation: the identifier of the entity that separated is not the one written (instance). *)
Lemma C18_separation_value_refuted_pf : exists m x bs y rest, wf_VariableParameter (VPSeparation x) /\
  w_variable_parameter m (VPSeparation x) = WOk bs 16 /\ p_variable_parameter bs = POk rest (VPSeparation y) /\ se_parent x <> se_parent y /\ rest <> [].
Proof.
  exists Checked, (MkSeparation 1 2 (MkEntityId (MkSimulationAddress 0x0102 0x0304) 0x0506) 7 8). do 3 eexists.
  split; [cbn; unfold u8, u16, wf_EntityId, wf_SimulationAddress, u16; cbn; lia|].
  split; [vm_compute; reflexivity|]. split; [vm_compute; reflexivity|]. split; vm_compute; discriminate.
Qed.
(*@ex*)
Example C18_ex : let v := VPArticulated (MkArticulatedPart 1 2 3 4096 0x3F800000) in wf_VariableParameter v /\ vp_canonical v /\
  p_variable_parameter [0; 1; 0; 2; 0; 0; 0x10; 3; 0x3F; 0x80; 0; 0; 0; 0; 0; 0] = POk [] v.
Proof. cbv zeta. cbn. unfold u8, u16, u32. repeat split; try lia. Qed.

(** ** C19 *)
(*@C19
Fire PDU: every descriptor whose kind matches the fire type indicator takes 16 octets and is read back. *)
Lemma C19_fire_descriptor_pf : forall fti d, wf_DescriptorRecord d ->
  (fti = 0 /\ (exists t m, d = DMunition t m) \/ fti = 1 /\ exists t, d = DExpendable t) ->
  exists bs, w_descriptor_record d = WOk bs 16 /\ zlen bs = 16 /\ forall rest, p_descriptor_record_fti fti (bs ++ rest) = POk rest d.
Proof.
  intros fti d Hw Hk. apply RT_descriptor_fti; [exact Hw|]. destruct Hk as [[-> (t & m & ->)]|[-> (t & ->)]]; cbn; lia.
Qed.
(*@C19
Detonation PDU: munition and expendable descriptors likewise. *)
Lemma C19_detonation_descriptor_pf : forall dti d, wf_DescriptorRecord d ->
  (dti = 0 /\ (exists t m, d = DMunition t m) \/ dti = 1 /\ exists t, d = DExpendable t) ->
  exists bs, w_descriptor_record d = WOk bs 16 /\ zlen bs = 16 /\ forall rest, p_descriptor_record_dti dti (bs ++ rest) = POk rest d.
Proof.
  intros dti d Hw Hk. destruct Hk as [[-> (t & m & ->)]|[-> (t & ->)]]; apply RT_descriptor_dti; cbn; auto; lia.
Qed.
(*@C19
Refutation: an explosion descriptor is written as 16 octets but read from 14, with the padding for the upper half of the
explosive force: no explosion descriptor is read from its own octets with nothing left over. *)
Lemma C19_explosion_refuted_pf : forall t mat f, wf_DescriptorRecord (DExplosion t mat f) ->
  exists bs, w_descriptor_record (DExplosion t mat f) = WOk bs 16 /\ zlen bs = 16 /\
  forall rest, exists y, p_descriptor_record_dti 2 (bs ++ rest) = POk (skipn 14 bs ++ rest) (DExplosion t mat y) /\ y < 65536.
Proof.
  intros t mat f [Ht [Hm Hf]].
  destruct (RT_entity_type t Ht) as (bt & Et & Lt & Pt).
  exists (bt ++ be 2 mat ++ be 2 0 ++ be 4 f). unfold w_descriptor_record. unfold wbind at 1. rewrite Et.
  split; [unfold put_u16, put_f32, put, wbind, wret; cbn [app]; rewrite app_nil_r; reflexivity|].
  split; [rewrite !zlen_app, !be_zlen, Lt; reflexivity|]. intros rest.
  exists (f / 65536). unfold p_descriptor_record_dti, pbind. rewrite <- !app_assoc, Pt. cbn [Z.eqb Pos.eqb].
  unfold be_u16. rewrite be_u_be by (unfold u16 in Hm; cbn; lia).
  unfold be_f32. unfold u32 in Hf.
  assert (H0 : 0 <= f / 65536 < 65536) by (split; [apply Z.div_pos|apply Z.div_lt_upper_bound]; lia).
  assert (Hs : be 2 0 ++ be 4 f = be 4 (f / 65536) ++ be 2 f).
  { unfold be. cbn [app]. change (256 ^ Z.of_nat 3) with 16777216. change (256 ^ Z.of_nat 2) with 65536. change (256 ^ Z.of_nat 1) with 256. change (256 ^ Z.of_nat 0) with 1.
    rewrite (Z.div_small (f / 65536) 16777216), (Z.div_small (f / 65536) 65536) by lia. rewrite (Z.div_div f 65536 256), (Z.div_div f 65536 1) by lia. reflexivity. }
  rewrite !(app_assoc _ _ rest), Hs, <- !app_assoc. rewrite be_u_be by (cbn; lia).
  unfold pret. split; [|lia]. f_equal.
  assert (Hk : skipn 14 (bt ++ be 2 mat ++ be 4 (f / 65536) ++ be 2 f) = be 2 f); [|now rewrite Hk].
  rewrite !(app_assoc bt), app_assoc. rewrite skipn_app.
  rewrite skipn_all2 by (rewrite !app_length, !be_length; unfold zlen in Lt; lia).
  replace (14 - _)%nat with 0%nat by (rewrite !app_length, !be_length; unfold zlen in Lt; lia). reflexivity.
Qed.
(*@ex*)
Example C19_ex : let t := MkEntityType 2 1 225 1 2 3 0 in wf_DescriptorRecord (DMunition t (MkMunitionDescriptor 1000 2000 1 0)) /\
  wf_DescriptorRecord (DExpendable t) /\ wf_DescriptorRecord (DExplosion t 10 0x3F800000).
Proof. cbv zeta. cbn. unfold wf_EntityType, wf_MunitionDescriptor, u8, u16, u32. cbn. lia. Qed.

(** ** C20 *)
(** number of octets of the records of a set, and the standard's padding to 8 *)
Definition record_octets (r : RecordSet) : Z := zsum (map zlen (rs_records r)).
(** all records have the length that the set announces (which is how [with_records] sets it) *)
Definition equally_sized (r : RecordSet) : Prop :=
  r = record_set_with_records (rs_id r) (rs_serial r) (rs_records r) /\
  forall x y, In x (rs_records r) -> In y (rs_records r) -> zlen x = zlen y.

Lemma equally_uniform r : equally_sized r -> (forall x, In x (rs_records r) -> zlen x < 65536) -> rs_uniform r.
Proof.
  intros [E Hs] Hl. unfold rs_uniform. rewrite E. unfold record_set_with_records. cbn [rs_records rs_length_bytes].
  destruct (rs_records r) as [|x l]; [split; [constructor|reflexivity]|]. split; [|discriminate].
  rewrite Z.mod_small by (split; [apply zlen_nonneg|apply Hl; now left]).
  apply Forall_forall. intros y Hy. apply Hs; [exact Hy|now left].
Qed.
(*@C20
A record set whose records all have the same size (below 8192 octets, the most the length field in bits can say), with
fewer than 65536 octets in total, takes 16 octets plus the records rounded up to a multiple of eight, reports that size and is read back, in debug and release builds. *)
Lemma C20_record_set_pf : forall m r, wf_RecordSet r -> equally_sized r -> (forall x, In x (rs_records r) -> zlen x < 8192) ->
  record_octets r < 65500 -> zlen (rs_records r) < 65536 ->
  exists bs pad, w_record_set m r = WOk bs (zlen bs) /\ 0 <= pad < 8 /\ zlen bs = 16 + record_octets r + pad /\ zlen bs mod 8 = 0 /\
  forall rest, p_record_set m (bs ++ rest) = POk rest r.
Proof.
  intros m r Hw He Hl Ho Hc.
  assert (Hu : rs_uniform r) by (apply equally_uniform; [exact He|intros x Hx; specialize (Hl x Hx); lia]).
  pose proof (rs_records_total r Hu) as Ht. unfold record_octets in *. rewrite Ht in *.
  assert (Hlb : rs_length_bytes r < 8192).
  { destruct Hu as [Hu1 Hu2]. destruct (rs_records r) as [|x l]; [rewrite Hu2 by reflexivity; lia|].
    inversion Hu1; subst. rewrite <- H1. apply Hl. now left. }
  set (n := rs_length_bytes r * zlen (rs_records r)) in *. pose proof (pad_to_bound n 8 ltac:(lia)) as Hp.
  pose proof (pad_to_total n 8 ltac:(lia)) as Hpt.
  assert (Hsz : rs_size r = 16 + n + pad_to n 8) by reflexivity.
  destruct (RT_record_set m r Hw Hu Hlb ltac:(lia) Hc) as (bs & E & Hz & HP).
  exists bs, (pad_to n 8). rewrite Hz, Hsz in *. split; [exact E|]. split; [exact Hp|]. split; [reflexivity|]. split; [|exact HP].
  rewrite <- Z.add_assoc. rewrite Z.add_mod by lia. rewrite Hpt. reflexivity.
Qed.
(*@C20
A record specification with such sets round-trips as a whole. *)
Lemma C20_record_specification_pf : forall m l, Forall wf_RecordSet l ->
  Forall (fun r => equally_sized r /\ (forall x, In x (rs_records r) -> zlen x < 8192) /\ zlen (rs_records r) < 65536) l ->
  recspec_size l < 65536 ->
  exists bs, w_record_specification m l = WOk bs (zlen bs) /\ forall rest, p_record_specification m (bs ++ rest) = POk rest l.
Proof.
  intros m l Hw Hf Hs. destruct (RT_record_specification m l Hw) as (bs & E & Hz & HP).
  - eapply Forall_impl; [|exact Hf]. intros r (He & Hl & Hc).
    assert (Hu : rs_uniform r) by (apply equally_uniform; [exact He|intros x Hx; specialize (Hl x Hx); lia]).
    repeat split; try assumption; try apply Hu.
    destruct Hu as [Hu1 Hu2]. destruct (rs_records r) as [|x t]; [rewrite Hu2 by reflexivity; lia|].
    inversion Hu1; subst. rewrite <- H1. apply Hl. now left.
  - exact Hs.
  - exists bs. rewrite Hz. auto.
Qed.
(*@C20
Refutation: a set of 65536 octets or more (eight records of 8191 octets and nine octets are enough), although each of
its fields is representable, panics in the parser of a debug build. *)
Lemma C20_record_set_refuted_pf : forall id serial x n rest, u32 id -> u32 serial ->
  0 < zlen x < 8192 -> 0 < Z.of_nat n < 65536 -> 65536 <= zlen x * Z.of_nat n ->
  p_record_set Checked (be 4 id ++ be 4 serial ++ be 4 0 ++ be 2 (zlen x * 8) ++ be 2 (Z.of_nat n) ++ concat (repeat x n) ++ rest) = PPanic.
Proof.
  intros id serial x n rest Hi Hs Hx Hn Ho. unfold p_record_set, pbind, be_u32, be_u16. unfold u32 in *.
  do 3 rewrite be_u_be by (cbn; lia). do 2 rewrite be_u_be by (cbn; lia). cbv zeta.
  replace ((zlen x * 8 + 7) / 8) with (zlen x) by (apply Z.div_unique with 7; lia).
  assert (Hc : forall k, count_nat (take (zlen x)) k (concat (repeat x k) ++ rest) = POk rest (repeat x k)).
  { induction k as [|k IH]; [reflexivity|]. cbn [repeat concat count_nat]. unfold pbind. rewrite <- app_assoc. rewrite take_app by reflexivity. rewrite IH. reflexivity. }
  unfold count. rewrite Nat2Z.id, Hc. unfold parith, arith.
  destruct (Z.ltb_spec (zlen x * Z.of_nat n) 65536); [lia|]. rewrite andb_false_r. reflexivity.
Qed.
(*@ex*)
Example C20_ex : let r := record_set_with_records 1 2 [[1; 2; 3]; [4; 5; 6]; [7; 8; 9]] in wf_RecordSet r /\ equally_sized r /\ record_octets r = 9 /\
  exists bs, w_record_set Checked r = WOk bs 32.
Proof.
  cbv zeta. split.
  { unfold wf_RecordSet. cbn [rs_id rs_serial rs_length_bytes rs_records record_set_with_records]. unfold u32, u16.
    change (zlen [1; 2; 3] mod 65536) with 3. split; [lia|]. split; [lia|]. split; [lia|].
    repeat (constructor; [unfold bytes; repeat (constructor; [lia|]); constructor|]). constructor. }
  split; [split; [reflexivity|]; intros x y Hx Hy; cbn in Hx, Hy; intuition (subst; reflexivity)|]. split; [reflexivity|]. eexists. vm_compute. reflexivity.
Qed.

(** ** C39 *)
(** specification: letters and digits, the ASCII ones and those of the Unicode table *)
Definition alphanumeric (c : Z) : Prop := 48 <= c <= 57 \/ 65 <= c <= 90 \/ 97 <= c <= 122 \/ 128 <= c /\ in_ranges alphanumeric_table c = true.
(** specification: a text is empty or ends with a letter or digit *)
Definition ends_alphanumeric (s : list Z) : Prop := s = [] \/ exists pre c, s = pre ++ [c] /\ alphanumeric c.
Lemma alphanumeric_is c : alphanumeric c <-> is_alnum c = true.
Proof.
  unfold alphanumeric, is_alnum. destruct (Z.ltb_spec c 128) as [L|L].
  - rewrite !orb_true_iff, !andb_true_iff, !Z.leb_le. lia.
  - split; [intros [H|[H|[H|[_ H]]]]; [lia|lia|lia|exact H]|]. intros H. right. right. right. split; [exact L|exact H].
Qed.
Lemma ends_is s : ends_alphanumeric s <-> ends_alnum s.
Proof.
  split; (intros [->|(p & c & -> & H)]; [now left|right; exists p, c; split; [reflexivity|now apply alphanumeric_is]]).
Qed.
Lemma marking_trip n cs s : 0 <= n -> u8 cs -> Forall scalar s -> zlen (utf8_encode s) <= n -> ends_alphanumeric s ->
  RT (w_marking n (MkMarking cs (utf8_encode s))) (p_marking n) (MkMarking cs (utf8_encode s)) (n + 1) (n + 1).
Proof.
  intros Hn Hc Hs Hl He. apply RT_marking.
  - split; [exact Hc|]. now apply utf8_encode_bytes.
  - split; [exact Hl|]. exists s. split; [exact Hs|]. split; [reflexivity|]. now apply ends_is.
Qed.
(*@C39
An entity marking, any text of at most eleven octets of UTF-8 that is empty or ends with a letter or digit (so in particular every alphanumeric one), is
written as twelve octets and read back. *)
Lemma C39_entity_marking_pf : forall cs s, u8 cs -> Forall scalar s -> zlen (utf8_encode s) <= 11 -> ends_alphanumeric s ->
  exists bs, w_marking 11 (MkMarking cs (utf8_encode s)) = WOk bs 12 /\ zlen bs = 12 /\
  forall rest, p_marking 11 (bs ++ rest) = POk rest (MkMarking cs (utf8_encode s)).
Proof. intros cs s Hc Hs Hl He. apply (marking_trip 11); (lia || assumption). Qed.
(*@C39
The same for the 31 character marking of an aggregate (32 octets). *)
Lemma C39_aggregate_marking_pf : forall cs s, u8 cs -> Forall scalar s -> zlen (utf8_encode s) <= 31 -> ends_alphanumeric s ->
  exists bs, w_marking 31 (MkMarking cs (utf8_encode s)) = WOk bs 32 /\ zlen bs = 32 /\
  forall rest, p_marking 31 (bs ++ rest) = POk rest (MkMarking cs (utf8_encode s)).
Proof. intros cs s Hc Hs Hl He. apply (marking_trip 31); (lia || assumption). Qed.
(*@C39
Every marking with more than eleven octets makes serialisation fail (a length subtraction underflows). *)
Lemma C39_long_marking_pf : forall cs str, 11 < zlen str -> w_marking 11 (MkMarking cs str) = WPanic.
Proof. intros cs str H. unfold w_marking. cbn [mk_string]. destruct (Z.ltb_spec 11 (zlen str)); [reflexivity|lia]. Qed.

Lemma marking_read n i r x : 0 <= n -> p_marking n i = POk r x -> exists c buf, i = c :: buf ++ r /\ zlen buf = n /\ mk_charset x = be_val [c] /\ mk_string x = sanitize_marking buf.
Proof.
  intros Hn. unfold p_marking, pbind, be_u8, be_u. destruct (Nat.ltb_spec (length i) 1) as [|Hi]; [discriminate|].
  unfold take. destruct (Z.ltb_spec (zlen (skipn 1 i)) n) as [|Hi2]; [discriminate|]. unfold pret. intros H. injection H as <- <-.
  destruct i as [|c i]; [cbn in Hi; lia|]. cbn [skipn firstn] in *. exists c, (firstn (Z.to_nat n) i). rewrite firstn_skipn.
  repeat split. unfold zlen in *. rewrite firstn_length. lia.
Qed.
(*@C39
What is made of a received marking: the octets are taken as UTF-8, with U+FFFD for what is not UTF-8, and of these characters those up to the last letter or
digit are kept. They take at most 33 octets. *)
Lemma C39_parse_pf : forall i r x, bytes i -> p_marking 11 i = POk r x ->
  exists s t, utf8_lossy (firstn 11 (skipn 1 i)) = s ++ t /\ Forall scalar s /\ mk_string x = utf8_encode s /\ ends_alphanumeric s /\
  Forall (fun c => ~ alphanumeric c) t /\ zlen (mk_string x) <= 33.
Proof.
  intros i r x Hb H. destruct (marking_read 11 i r x ltac:(lia) H) as (c & buf & -> & L & _ & E). cbn [skipn].
  assert (F : firstn 11 (buf ++ r) = buf).
  { assert (length buf = 11%nat) as L' by (unfold zlen in L; lia). rewrite <- L', firstn_app, Nat.sub_diag, firstn_all. cbn. apply app_nil_r. }
  rewrite F. assert (Hbuf : bytes buf) by (inversion Hb as [|? ? _ Hb']; apply Forall_app in Hb'; apply Hb').
  destruct (sanitize_spec buf) as (s & t & Es & He & Ht & Ez). exists s, t. split; [exact Es|].
  pose proof (lossy_is buf Hbuf) as LS. rewrite Es in LS. destruct (Lossy_split _ _ LS s t eq_refl) as (p & u & Epu & Lp & _).
  split; [apply (Lossy_scalar p), Lp|]. split; [congruence|]. split; [now apply ends_is|]. split.
  - eapply Forall_impl; [|exact Ht]. intros d Hd Ha. apply alphanumeric_is in Ha. congruence.
  - rewrite E, Ez, utf8_encode_len. pose proof (Lossy_len _ _ Lp). rewrite Epu, zlen_app in L. pose proof (zlen_nonneg u). lia.
Qed.
(*@C39
When the octets received are a text, then anything without letters and digits (spaces, zeros, octets that are not UTF-8 at all), the marking is the text up to its last letter or
digit, a prefix of the octets, and it is stable: it survives being written and parsed again. *)
Lemma C39_parse_stable_pf : forall i r x u v, u8 (hd 0 i) -> firstn 11 (skipn 1 i) = utf8_encode u ++ v -> Forall scalar u ->
  Forall (fun c => ~ alphanumeric c) (utf8_lossy v) -> p_marking 11 i = POk r x ->
  (exists t, firstn 11 (skipn 1 i) = mk_string x ++ t) /\
  exists bs, w_marking 11 x = WOk bs 12 /\ forall rest, p_marking 11 (bs ++ rest) = POk rest x.
Proof.
  intros i r x u v H8 Eu Hu Hv H. destruct (marking_read 11 i r x ltac:(lia) H) as (c & buf & -> & L & Ec & E). cbn [skipn hd] in *.
  assert (F : firstn 11 (buf ++ r) = buf).
  { assert (length buf = 11%nat) as L' by (unfold zlen in L; lia). rewrite <- L', firstn_app, Nat.sub_diag, firstn_all. cbn. apply app_nil_r. }
  rewrite F in *. destruct (trim_prefix (fun c => negb (is_alnum c)) u) as (t & Et & _ & He).
  set (s := trim_end_matches (fun c => negb (is_alnum c)) u) in *.
  assert (S : sanitize_marking buf = utf8_encode s).
  { rewrite sanitize_eq, Eu, lossy_encode by exact Hu. f_equal. unfold s, trim_end_matches. rewrite rev_app_distr. f_equal.
    assert (G : forall a b, Forall (fun c => ~ alphanumeric c) a -> drop_while (fun c => negb (is_alnum c)) (a ++ b) = drop_while (fun c => negb (is_alnum c)) b).
    { intros a b Ha. induction Ha as [|d a Hd _ IH]; [reflexivity|]. cbn [app drop_while]. destruct (is_alnum d) eqn:Q; [exfalso; apply Hd, alphanumeric_is, Q|exact IH]. }
    apply G. apply Forall_rev. exact Hv. }
  assert (Hs : Forall scalar s) by (rewrite Et in Hu; apply Forall_app in Hu; apply Hu).
  assert (P : buf = mk_string x ++ utf8_encode t ++ v) by (rewrite E, S, Eu at 1; rewrite Et at 1; rewrite utf8_encode_app; symmetry; apply app_assoc).
  split; [eexists; exact P|].
  assert (Hl : zlen (mk_string x) <= 11) by (rewrite P, zlen_app in L; pose proof (zlen_nonneg (utf8_encode t ++ v)); lia).
  destruct x as [cs str]. cbn [mk_charset mk_string] in *. rewrite E, S in Hl |- *.
  destruct (marking_trip 11 cs s) as (bs & W & _ & R); [lia| |exact Hs|exact Hl| |].
  - rewrite Ec. unfold be_val. cbn. exact H8.
  - apply ends_is. destruct He as [->|(p & d & Ep & Hd)]; [now left|right; exists p, d]. split; [exact Ep|]. now apply negb_false_iff.
  - exists bs. split; [exact W|exact R].
Qed.
(*@C39
Refutation: a received marking need not fit back. Ten octets 255 and the letter A become ten U+FFFD, of three octets each, and the A: writing this marking fails. *)
Lemma C39_parsed_marking_too_long_refuted_pf : exists i x, bytes i /\ p_marking 11 i = POk [] x /\ zlen (mk_string x) = 31 /\ w_marking 11 x = WPanic.
Proof.
  exists (1 :: repeat 255 10 ++ [65]). eexists. split; [repeat constructor; lia|]. split; [vm_compute; reflexivity|]. split; vm_compute; reflexivity.
Qed.
(*@C39
Refutation: a trailing character that is neither a letter nor a digit is lost. *)
Lemma C39_trailing_punctuation_refuted_pf : exists str bs x, Forall (fun c => 0 <= c < 128) str /\ zlen str <= 11 /\
  w_marking 11 (MkMarking 1 str) = WOk bs 12 /\ p_marking 11 bs = POk [] x /\ mk_string x <> str.
Proof.
  exists [65; 66; 33]. do 2 eexists. split; [repeat constructor; lia|]. split; [vm_compute; discriminate|].
  split; [vm_compute; reflexivity|]. split; [vm_compute; reflexivity|]. vm_compute. discriminate.
Qed.
(*@ex*)
(** EYE 10, and Ägypten *)
Example C39_ex : Forall scalar [69; 89; 69; 32; 49; 48] /\ ends_alphanumeric [69; 89; 69; 32; 49; 48] /\ utf8_encode [69; 89; 69; 32; 49; 48] = [69; 89; 69; 32; 49; 48] /\
  Forall scalar [196; 103; 121; 112; 116; 101; 110] /\ ends_alphanumeric [196; 103; 121; 112; 116; 101; 110] /\ zlen (utf8_encode [196; 103; 121; 112; 116; 101; 110]) = 8.
Proof.
  split; [repeat (constructor; [left; lia|]); constructor|]. split; [right; exists [69; 89; 69; 32; 49], 48; split; [reflexivity|unfold alphanumeric; lia]|].
  split; [reflexivity|]. split; [repeat (constructor; [left; lia|]); constructor|].
  split; [right; exists [196; 103; 121; 112; 116; 101], 110; split; [reflexivity|unfold alphanumeric; lia]|reflexivity].
Qed.

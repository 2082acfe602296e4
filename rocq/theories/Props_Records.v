(** * Properties: Records

    Theorems only: each is closed by the lemma of the same name in L_Records.v. *)
From Coq Require Import ZArith List Lia Bool String Ascii.
From Verif Require Import Base Utf8 DisCommon DisLists DisEntity L_Records.
Import ListNotations. Open Scope Z_scope.

(** C16. Padding [n] octets to a multiple of [k]: never fails, data plus padding is the record, the padding is shorter than [k],
the record is a multiple of [k], and no smaller multiple of [k] holds the data. *)
Theorem C16_padding : forall n k, 0 <= n -> 0 < k -> exists pl, length_padded_to_num n k = Some pl /\
  pl_data pl = n /\ pl_data pl + pl_padding pl = pl_record pl /\ 0 <= pl_padding pl < k /\
  (exists q, pl_record pl = q * k) /\ (forall q, n <= q * k -> pl_record pl <= q * k).
Proof. exact C16_padding_pf. Qed.
Print Assumptions C16_padding.

(** C16. Alignment zero, the one input it cannot handle, panics. *)
Theorem C16_zero_alignment : forall n, length_padded_to_num n 0 = None.
Proof. exact C16_zero_alignment_pf. Qed.
Print Assumptions C16_zero_alignment.

Example C16_ex : length_padded_to_num 13 8 = Some (MkPadded 13 3 16) /\ length_padded_to_num 16 8 = Some (MkPadded 16 0 16) /\ length_padded_to_num 0 8 = Some (MkPadded 0 0 0).
Proof. repeat split; reflexivity. Qed.

(** C17. The parser reads the standard encoding of every datum whose length in bits fits 32 bits, whatever its length. *)
Theorem C17_parse_standard : forall d pad rest, wf_VariableDatum d -> 8 * zlen (vd_value d) < 2 ^ 32 ->
  minimal_padding (zlen (vd_value d)) pad -> p_variable_datum (standard_variable_datum d pad ++ rest) = POk rest d.
Proof. exact C17_parse_standard_pf. Qed.
Print Assumptions C17_parse_standard.

(** C17. For datums that are a multiple of eight octets the writer emits the standard encoding and reports its size, and the parser returns the datum. *)
Theorem C17_variable_datum_aligned : forall m d, wf_VariableDatum d -> zlen (vd_value d) < 8184 -> zlen (vd_value d) mod 8 = 0 ->
  w_variable_datum m d = WOk (standard_variable_datum d 0) (8 + zlen (vd_value d)) /\
  zlen (standard_variable_datum d 0) = 8 + zlen (vd_value d) /\
  forall rest, p_variable_datum (standard_variable_datum d 0 ++ rest) = POk rest d.
Proof. exact C17_variable_datum_aligned_pf. Qed.
Print Assumptions C17_variable_datum_aligned.

(** C17. Refutation, for every other length: 64 times the padding is written, more octets than reported, so
that the next record is read from the wrong place. *)
Theorem C17_variable_datum_refuted : forall m d, wf_VariableDatum d -> zlen (vd_value d) < 8184 -> zlen (vd_value d) mod 8 <> 0 ->
  exists pad bs n, minimal_padding (zlen (vd_value d)) pad /\
    bs = standard_variable_datum d (64 * pad) /\ w_variable_datum m d = WOk bs n /\ n = zlen (standard_variable_datum d pad) /\ n < zlen bs /\
    forall rest, p_variable_datum (bs ++ rest) = POk (repeat 0 (63 * pad) ++ rest) d.
Proof. exact C17_variable_datum_refuted_pf. Qed.
Print Assumptions C17_variable_datum_refuted.

(** C17. Refutation of the reported size: for datums of 8184 octets and more that the length field still has room for, the
reported size is too small even when the datum is aligned. *)
Theorem C17_reported_size_refuted : forall m d, wf_VariableDatum d -> 8192 <= zlen (vd_value d) < 2 ^ 29 -> zlen (vd_value d) mod 8 = 0 ->
  exists bs n, w_variable_datum m d = WOk bs n /\ zlen bs = 8 + zlen (vd_value d) /\ n < zlen bs.
Proof. exact C17_reported_size_refuted_pf. Qed.
Print Assumptions C17_reported_size_refuted.

Example C17_ex : let d := MkVariableDatum 7 [1; 2; 3; 4; 5] in
  wf_VariableDatum d /\ zlen (vd_value d) < 8184 /\ zlen (vd_value d) mod 8 <> 0 /\ minimal_padding (zlen (vd_value d)) 3 /\
  wf_VariableDatum (MkVariableDatum 7 [1; 2; 3; 4; 5; 6; 7; 8]).
Proof.
  cbv zeta. unfold wf_VariableDatum, minimal_padding, bytes, u32, u8. cbn [vd_id vd_value]. repeat split; try lia; try (vm_compute; discriminate); try (vm_compute; reflexivity);
  repeat constructor; lia.
Qed.

(** C18. Every variant is written as 16 octets, starts with its record type, and the size reported is 16. *)
Theorem C18_sixteen_octets : forall m v, wf_VariableParameter v -> vp_canonical v ->
  exists bs, w_variable_parameter m v = WOk (vp_record_type v :: bs) 16 /\ zlen (vp_record_type v :: bs) = 16.
Proof. exact C18_sixteen_octets_pf. Qed.
Print Assumptions C18_sixteen_octets.

(** C18. Every variant but Separation is read back. (The five low bits of an articulated part's type code are the metric and the others
the class; an unspecified record has a type number of its own: [vp_canonical].) *)
Theorem C18_round_trip : forall m v, wf_VariableParameter v -> vp_canonical v -> (forall x, v <> VPSeparation x) ->
  exists bs, w_variable_parameter m v = WOk bs 16 /\ zlen bs = 16 /\ forall rest, p_variable_parameter (bs ++ rest) = POk rest v.
Proof. exact C18_round_trip_pf. Qed.
Print Assumptions C18_round_trip.

(** C18. Refutation: no Separation record is read back: the parser takes 15 of its 16 octets. *)
Theorem C18_separation_refuted : forall m x, wf_VariableParameter (VPSeparation x) ->
  exists bs last, w_variable_parameter m (VPSeparation x) = WOk (bs ++ [last]) 16 /\
  forall rest, exists y, p_variable_parameter (bs ++ [last] ++ rest) = POk (last :: rest) y.
Proof. exact C18_separation_refuted_pf. Qed.
Print Assumptions C18_separation_refuted.

(** C18. Refutation: the identifier of the entity that separated is not the one written (instance). *)
Theorem C18_separation_value_refuted : exists m x bs y rest, wf_VariableParameter (VPSeparation x) /\
  w_variable_parameter m (VPSeparation x) = WOk bs 16 /\ p_variable_parameter bs = POk rest (VPSeparation y) /\ se_parent x <> se_parent y /\ rest <> [].
Proof. exact C18_separation_value_refuted_pf. Qed.
Print Assumptions C18_separation_value_refuted.

Example C18_ex : let v := VPArticulated (MkArticulatedPart 1 2 3 4096 0x3F800000) in wf_VariableParameter v /\ vp_canonical v /\
  p_variable_parameter [0; 1; 0; 2; 0; 0; 0x10; 3; 0x3F; 0x80; 0; 0; 0; 0; 0; 0] = POk [] v.
Proof. cbv zeta. cbn. unfold u8, u16, u32. repeat split; try lia. Qed.

(** C19. Fire PDU: every descriptor whose kind matches the fire type indicator takes 16 octets and is read back. *)
Theorem C19_fire_descriptor : forall fti d, wf_DescriptorRecord d ->
  (fti = 0 /\ (exists t m, d = DMunition t m) \/ fti = 1 /\ exists t, d = DExpendable t) ->
  exists bs, w_descriptor_record d = WOk bs 16 /\ zlen bs = 16 /\ forall rest, p_descriptor_record_fti fti (bs ++ rest) = POk rest d.
Proof. exact C19_fire_descriptor_pf. Qed.
Print Assumptions C19_fire_descriptor.

(** C19. Detonation PDU: munition and expendable descriptors likewise. *)
Theorem C19_detonation_descriptor : forall dti d, wf_DescriptorRecord d ->
  (dti = 0 /\ (exists t m, d = DMunition t m) \/ dti = 1 /\ exists t, d = DExpendable t) ->
  exists bs, w_descriptor_record d = WOk bs 16 /\ zlen bs = 16 /\ forall rest, p_descriptor_record_dti dti (bs ++ rest) = POk rest d.
Proof. exact C19_detonation_descriptor_pf. Qed.
Print Assumptions C19_detonation_descriptor.

(** C19. Refutation: an explosion descriptor is written as 16 octets but read from 14, with the padding for the upper half of the
explosive force: no explosion descriptor is read from its own octets with nothing left over. *)
Theorem C19_explosion_refuted : forall t mat f, wf_DescriptorRecord (DExplosion t mat f) ->
  exists bs, w_descriptor_record (DExplosion t mat f) = WOk bs 16 /\ zlen bs = 16 /\
  forall rest, exists y, p_descriptor_record_dti 2 (bs ++ rest) = POk (skipn 14 bs ++ rest) (DExplosion t mat y) /\ y < 65536.
Proof. exact C19_explosion_refuted_pf. Qed.
Print Assumptions C19_explosion_refuted.

Example C19_ex : let t := MkEntityType 2 1 225 1 2 3 0 in wf_DescriptorRecord (DMunition t (MkMunitionDescriptor 1000 2000 1 0)) /\
  wf_DescriptorRecord (DExpendable t) /\ wf_DescriptorRecord (DExplosion t 10 0x3F800000).
Proof. cbv zeta. cbn. unfold wf_EntityType, wf_MunitionDescriptor, u8, u16, u32. cbn. lia. Qed.

(** C20. A record set whose records all have the same size (below 8192 octets, the most the length field in bits can say), with
fewer than 65536 octets in total, takes 16 octets plus the records rounded up to a multiple of eight, reports that size and is read back, in debug and release builds. *)
Theorem C20_record_set : forall m r, wf_RecordSet r -> equally_sized r -> (forall x, In x (rs_records r) -> zlen x < 8192) ->
  record_octets r < 65500 -> zlen (rs_records r) < 65536 ->
  exists bs pad, w_record_set m r = WOk bs (zlen bs) /\ 0 <= pad < 8 /\ zlen bs = 16 + record_octets r + pad /\ zlen bs mod 8 = 0 /\
  forall rest, p_record_set m (bs ++ rest) = POk rest r.
Proof. exact C20_record_set_pf. Qed.
Print Assumptions C20_record_set.

(** C20. A record specification with such sets round-trips as a whole. *)
Theorem C20_record_specification : forall m l, Forall wf_RecordSet l ->
  Forall (fun r => equally_sized r /\ (forall x, In x (rs_records r) -> zlen x < 8192) /\ zlen (rs_records r) < 65536) l ->
  recspec_size l < 65536 ->
  exists bs, w_record_specification m l = WOk bs (zlen bs) /\ forall rest, p_record_specification m (bs ++ rest) = POk rest l.
Proof. exact C20_record_specification_pf. Qed.
Print Assumptions C20_record_specification.

(** C20. Refutation: a set of 65536 octets or more (eight records of 8191 octets and nine octets are enough), although each of
its fields is representable, panics in the parser of a debug build. *)
Theorem C20_record_set_refuted : forall id serial x n rest, u32 id -> u32 serial ->
  0 < zlen x < 8192 -> 0 < Z.of_nat n < 65536 -> 65536 <= zlen x * Z.of_nat n ->
  p_record_set Checked (be 4 id ++ be 4 serial ++ be 4 0 ++ be 2 (zlen x * 8) ++ be 2 (Z.of_nat n) ++ concat (repeat x n) ++ rest) = PPanic.
Proof. exact C20_record_set_refuted_pf. Qed.
Print Assumptions C20_record_set_refuted.

Example C20_ex : let r := record_set_with_records 1 2 [[1; 2; 3]; [4; 5; 6]; [7; 8; 9]] in wf_RecordSet r /\ equally_sized r /\ record_octets r = 9 /\
  exists bs, w_record_set Checked r = WOk bs 32.
Proof.
  cbv zeta. split.
  { unfold wf_RecordSet. cbn [rs_id rs_serial rs_length_bytes rs_records record_set_with_records]. unfold u32, u16.
    change (zlen [1; 2; 3] mod 65536) with 3. split; [lia|]. split; [lia|]. split; [lia|].
    repeat (constructor; [unfold bytes; repeat (constructor; [lia|]); constructor|]). constructor. }
  split; [split; [reflexivity|]; intros x y Hx Hy; cbn in Hx, Hy; intuition (subst; reflexivity)|]. split; [reflexivity|]. eexists. vm_compute. reflexivity.
Qed.

(** C39. An entity marking, any text of at most eleven octets of UTF-8 that is empty or ends with a letter or digit (so in particular every alphanumeric one), is
written as twelve octets and read back. *)
Theorem C39_entity_marking : forall cs s, u8 cs -> Forall scalar s -> zlen (utf8_encode s) <= 11 -> ends_alphanumeric s ->
  exists bs, w_marking 11 (MkMarking cs (utf8_encode s)) = WOk bs 12 /\ zlen bs = 12 /\
  forall rest, p_marking 11 (bs ++ rest) = POk rest (MkMarking cs (utf8_encode s)).
Proof. exact C39_entity_marking_pf. Qed.
Print Assumptions C39_entity_marking.

(** C39. The same for the 31 character marking of an aggregate (32 octets). *)
Theorem C39_aggregate_marking : forall cs s, u8 cs -> Forall scalar s -> zlen (utf8_encode s) <= 31 -> ends_alphanumeric s ->
  exists bs, w_marking 31 (MkMarking cs (utf8_encode s)) = WOk bs 32 /\ zlen bs = 32 /\
  forall rest, p_marking 31 (bs ++ rest) = POk rest (MkMarking cs (utf8_encode s)).
Proof. exact C39_aggregate_marking_pf. Qed.
Print Assumptions C39_aggregate_marking.

(** C39. Every marking with more than eleven octets makes serialisation fail (a length subtraction underflows). *)
Theorem C39_long_marking : forall cs str, 11 < zlen str -> w_marking 11 (MkMarking cs str) = WPanic.
Proof. exact C39_long_marking_pf. Qed.
Print Assumptions C39_long_marking.

(** C39. What is made of a received marking: the octets are taken as UTF-8, with U+FFFD for what is not UTF-8, and of these characters those up to the last letter or
digit are kept. They take at most 33 octets. *)
Theorem C39_parse : forall i r x, bytes i -> p_marking 11 i = POk r x ->
  exists s t, utf8_lossy (firstn 11 (skipn 1 i)) = s ++ t /\ Forall scalar s /\ mk_string x = utf8_encode s /\ ends_alphanumeric s /\
  Forall (fun c => ~ alphanumeric c) t /\ zlen (mk_string x) <= 33.
Proof. exact C39_parse_pf. Qed.
Print Assumptions C39_parse.

(** C39. When the octets received are a text, then anything without letters and digits (spaces, zeros, octets that are not UTF-8 at all), the marking is the text up to its last letter or
digit, a prefix of the octets, and it is stable: it survives being written and parsed again. *)
Theorem C39_parse_stable : forall i r x u v, u8 (hd 0 i) -> firstn 11 (skipn 1 i) = utf8_encode u ++ v -> Forall scalar u ->
  Forall (fun c => ~ alphanumeric c) (utf8_lossy v) -> p_marking 11 i = POk r x ->
  (exists t, firstn 11 (skipn 1 i) = mk_string x ++ t) /\
  exists bs, w_marking 11 x = WOk bs 12 /\ forall rest, p_marking 11 (bs ++ rest) = POk rest x.
Proof. exact C39_parse_stable_pf. Qed.
Print Assumptions C39_parse_stable.

(** C39. Refutation: a received marking need not fit back. Ten octets 255 and the letter A become ten U+FFFD, of three octets each, and the A: writing this marking fails. *)
Theorem C39_parsed_marking_too_long_refuted : exists i x, bytes i /\ p_marking 11 i = POk [] x /\ zlen (mk_string x) = 31 /\ w_marking 11 x = WPanic.
Proof. exact C39_parsed_marking_too_long_refuted_pf. Qed.
Print Assumptions C39_parsed_marking_too_long_refuted.

(** C39. Refutation: a trailing character that is neither a letter nor a digit is lost. *)
Theorem C39_trailing_punctuation_refuted : exists str bs x, Forall (fun c => 0 <= c < 128) str /\ zlen str <= 11 /\
  w_marking 11 (MkMarking 1 str) = WOk bs 12 /\ p_marking 11 bs = POk [] x /\ mk_string x <> str.
Proof. exact C39_trailing_punctuation_refuted_pf. Qed.
Print Assumptions C39_trailing_punctuation_refuted.

(** EYE 10, and Ägypten *)
Example C39_ex : Forall scalar [69; 89; 69; 32; 49; 48] /\ ends_alphanumeric [69; 89; 69; 32; 49; 48] /\ utf8_encode [69; 89; 69; 32; 49; 48] = [69; 89; 69; 32; 49; 48] /\
  Forall scalar [196; 103; 121; 112; 116; 101; 110] /\ ends_alphanumeric [196; 103; 121; 112; 116; 101; 110] /\ zlen (utf8_encode [196; 103; 121; 112; 116; 101; 110]) = 8.
Proof.
  split; [repeat (constructor; [left; lia|]); constructor|]. split; [right; exists [69; 89; 69; 32; 49], 48; split; [reflexivity|unfold alphanumeric; lia]|].
  split; [reflexivity|]. split; [repeat (constructor; [left; lia|]); constructor|].
  split; [right; exists [196; 103; 121; 112; 116; 101], 110; split; [reflexivity|unfold alphanumeric; lia]|reflexivity].
Qed.

(** * Parsers and the wire layout, the other way round: the larger bodies *)
From Coq Require Import ZArith List Lia Bool.
From Verif Require Import Base Utf8 DisCommon DisLists DisHeader DisSimman DisLogistics DisWarfare DisEntity DisEmission DisRadio DisIff DisPdu DisPacket Parsed SpecLayout Layout LayoutP LayoutP2 SpecLegible LayoutC.
Import ListNotations. Open Scope Z_scope.

Lemma whole_pad u n : 0 < u -> n mod u = 0 -> (- n) mod u = 0.
Proof. intros Hu H. now rewrite Z.mod_opp_l_z by lia. Qed.
Lemma Takes_nofill {A} (p : bparser A) x L : Takes p x L -> Takes p x (Fill 0 :: L).
Proof.
  intros H os r B0 S. apply (shows_app_inv [_]) in S. destruct S as (u & v & -> & Hu & Hv). apply shows_one in Hu. cbn [accepts Fill] in Hu.
  destruct u; [|unfold zlen in Hu; cbn [length] in Hu; lia]. apply H; assumption.
Qed.
Lemma Tk_attribute_record x : wf_AttributeRecord x -> whole 8 (ar_fields x) -> Takes p_attribute_record x (L_attribute_record x).
Proof.
  destruct x as [t f]; unfold wf_AttributeRecord, whole, p_attribute_record, L_attribute_record; prj; intros; unw. pose proof (zlen_nonneg f).
  rewrite whole_pad by (assumption || lia). apply Takes_nil. tk_norm. repeat tk_step. apply Takes_nofill. now apply Takes_ret.
Qed.
Definition L_attribute_set s := L_entity (as_entity_id s) ++ [Int 2 (zlen (as_records s))] ++ flat_map L_attribute_record (as_records s).
Lemma Tk_attribute_set x : wf_AttributeRecordSet x -> few16 (as_records x) /\ Forall (fun r => whole 8 (ar_fields r)) (as_records x) -> Takes p_attribute_record_set x (L_attribute_set x).
Proof.
  destruct x as [e l]; unfold wf_AttributeRecordSet, p_attribute_record_set; prj; intros; unw. apply Takes_nil. unfold L_attribute_set; prj. tk_norm. tk_step. tk_step.
  eapply Takes_bind; [eapply Takes_count2; [exact Tk_attribute_record|assumption|assumption|reflexivity]|]. now apply Takes_ret.
Qed.
Lemma Tk_attribute x : wf_Attribute x -> attribute_legible x -> Takes p_attribute_body x (L_attribute x).
Proof.
  destruct x; unfold wf_Attribute, attribute_legible, p_attribute_body; prj; intros; unw. apply Takes_nil. unfold L_attribute; prj. fold L_attribute_set. tk_norm. repeat tk_step.
  eapply Takes_bind; [eapply Takes_count2; [exact Tk_attribute_set|assumption|assumption|reflexivity]|]. now apply Takes_ret.
Qed.
(** ** Entity state *)
Lemma Tk_marking n x : 0 <= n -> wf_Marking x -> Takes (p_marking n) x [Int 1 (mk_charset x); Text n (mk_string x)].
Proof. destruct x as [c s]; unfold wf_Marking, p_marking; prj; intros; unw. tk_step. apply Takes_text; [assumption|]. intros l <-. now apply Takes_ret. Qed.
Lemma Tk_dr_other a x : wf_DrOther x -> reckoning_of a x -> Takes (p_dr_other a) x (L_dr_other x).
Proof.
  unfold p_dr_other; destruct x; cbn [wf_DrOther reckoning_of]; intros; unw; apply Takes_nil; cbn [L_dr_other]; tk_norm;
    repeat match goal with H : _ = true |- _ => rewrite H | H : _ = false |- _ => rewrite H end; repeat tk_step; reflexivity.
Qed.
Lemma Tk_dr x : wf_Dr x -> reckoning_of (dr_algorithm x) (dr_other x) -> Takes p_dr_parameters x (L_dr x).
Proof.
  destruct x as [a o acc v]; unfold wf_Dr, p_dr_parameters; prj; intros; unw. apply Takes_nil. unfold L_dr. prj. tk_norm. tk_step. eapply Takes_bind; [now apply Tk_dr_other|].
  repeat tk_step. reflexivity.
Qed.
Lemma Tk_capabilities v t x : wf_EntityCapabilities x -> capabilities_of v t x ->
  Takes (p_capabilities v (et_kind t) (et_domain t)) x [Field 4 (ec_word x) (capabilities_word v (et_kind t) (ec_word x))].
Proof.
  destruct x as [k w]. unfold wf_EntityCapabilities, capabilities_of, p_capabilities, capabilities_word, capabilities_from_bytes. cbn [ec_kind ec_word].
  intros Hw H. destruct (v =? 7); tk_step; apply Takes_ret.
  - destruct (Z.eqb_spec (et_kind t) 0); [now symmetry|]. rewrite H. f_equal. auto.
  - congruence.
Qed.
Lemma Tk_entity_state v x : wf_EntityState x -> parameters_legible (EntityState_variable_parameters x) -> appearance_of (EntityState_entity_type x) (EntityState_appearance x) ->
  reckoning_of (dr_algorithm (EntityState_dr x)) (dr_other (EntityState_dr x)) -> capabilities_of v (EntityState_entity_type x) (EntityState_capabilities x) ->
  Takes (p_entity_state_body v) x (L_entity_state v x).
Proof.
  destruct x; unfold wf_EntityState, p_entity_state_body, parameters_legible, few8; prj; intros; unw. unfold L_entity_state. prj.
  change (Takes ?p ?y ?L) with (Takes p y L).
  rewrite <- (app_nil_r (flat_map L_parameter _)).
  tk_norm. tk_step. tk_step. tk_step. tk_step. tk_step. tk_step. tk_step. tk_step.
  eapply (Takes_bind _ _ [_]); [apply Tk_appearance; assumption|].
  match goal with |- Takes (pbind p_dr_parameters _) _ (Int 1 _ :: ?X ++ ?V ++ ?W ++ ?R) => change (Int 1 _ :: X ++ V ++ W ++ R) with ([Int 1 (dr_algorithm EntityState_dr)] ++ L_dr_other (dr_other EntityState_dr) ++ V ++ W ++ R) end.
  rewrite !app_assoc. rewrite <- (app_assoc [Int 1 _] _ (L_vector _)), <- (app_assoc [Int 1 _] _ (L_vector _)), <- (app_assoc (L_dr_other _)).
  eapply Takes_bind; [apply (Tk_dr EntityState_dr); assumption|]. cbn [app].
  eapply (Takes_bind _ _ [_; _]); [apply Tk_marking; [lia|assumption]|].
  eapply (Takes_bind _ _ [_]); [apply Tk_capabilities; assumption|].
  tk_step. apply Takes_ret. reflexivity.
Qed.
Lemma Tk_other h x : wf_Other x -> other_legible h x -> Takes (p_other_body (h_type h) (h_length h)) x [Raw (Other_body x)].
Proof.
  destruct x as [o rc b]. unfold wf_Other, other_legible, p_other_body. cbn [Other_body Other_originating Other_receiving]. intros (Hb & Ho & Hr) (Ht & Hl & H) os r B0 S. apply shows_one in S. cbn [accepts Raw] in S. subst os.
  pose proof (zlen_nonneg b). assert (T : take (Z.max 0 (h_length h - 12)) (b ++ r) = POk r b) by (apply read_take; lia).
  destruct (other_peeks_one (h_type h)); [|destruct (other_peeks_two (h_type h))].
  - destruct H as (-> & e & r' & -> & E). unfold pbind, peek. rewrite (proj2 (Ext_entity_id _ _ _ E) r). unfold pret. rewrite T. reflexivity.
  - destruct H as (e & f & r1 & r2 & -> & -> & E & F). unfold pbind, peek. rewrite (proj2 (Ext_entity_id _ _ _ E) r), (proj2 (Ext_entity_id _ _ _ F) r). unfold pret. rewrite T. reflexivity.
  - destruct H as [-> ->]. unfold pbind, pret. rewrite T. reflexivity.
Qed.

(** ** Aggregate state *)
Lemma Tk_aggregate_type x : wf_AggregateType x -> Takes p_aggregate_type x (L_aggregate_type x).
Proof. destruct x; unfold wf_AggregateType, p_aggregate_type; prj; intros; unw. tk L_aggregate_type. Qed.
Global Hint Resolve Tk_aggregate_type : takes.
Lemma Tk_silent_aggregate x : wf_SilentAggregate x -> Takes p_silent_aggregate x (L_silent_aggregate x).
Proof. destruct x; unfold wf_SilentAggregate, p_silent_aggregate; prj; intros; unw. tk L_silent_aggregate. Qed.
Lemma Tk_silent_entity x : wf_SilentEntity x -> silent_entity_legible x -> Takes p_silent_entity x (L_silent_entity x).
Proof.
  destruct x as [n t l]; unfold wf_SilentEntity, silent_entity_legible, p_silent_entity; prj; intros; unw. apply Takes_nil. unfold L_silent_entity; prj. rewrite <- flat_map_app. tk_norm. tk_step. tk_step. tk_step.
  eapply Takes_bind; [eapply Takes_count2; [intros a; apply (Tk_appearance t)|assumption|assumption|reflexivity]|]. now apply Takes_ret.
Qed.
Global Hint Resolve Tk_silent_aggregate Tk_silent_entity : takes.
Lemma Tk_aggregate_state m x : wf_AggregateState x -> aggregate_legible x -> Takes (p_aggregate_state_body m) x (L_aggregate_state x).
Proof.
  destruct x; unfold wf_AggregateState, aggregate_legible, p_aggregate_state_body; prj; intros; unw. unfold L_aggregate_state. prj.
  rewrite <- (app_nil_r (flat_map L_variable _)). tk_norm. do 5 tk_step.
  eapply (Takes_bind _ _ [_; _]); [apply Tk_marking; [lia|assumption]|]. cbn [app].
  match goal with |- context [flat_map L_entity ?a ++ flat_map L_entity ?b ++ _] => pose proof (zlen_nonneg a) as Ga; pose proof (zlen_nonneg b) as Gb; set (ags := a) in *; set (ens := b) in * end.
  do 10 tk_step.
  pose proof (pad_to_bound (6 * zlen ags + 6 * zlen ens) 4 ltac:(lia)) as Hp.
  eapply Takes_pure; [intros i; unfold plift; rewrite agg_intermediate_ok by lia; reflexivity|]. cbn [snd].
  apply Takes_fill. { unfold pad_to in *. rewrite Z.mul_add_distr_l. lia. } intros ?.
  tk_step. eapply Takes_bind; [eapply Takes_count2; [exact Tk_silent_entity|assumption|assumption|reflexivity]|]. tk_step.
  eapply Takes_bind; [eapply Takes_count2; [exact Tk_variable|assumption|assumption|reflexivity]|]. now apply Takes_ret.
Qed.

(** ** Emission *)
Lemma Tk_track x : wf_TrackJam x -> Takes p_track_jam x (L_track x).
Proof. destruct x; unfold wf_TrackJam, p_track_jam; prj; intros; unw. tk L_track. Qed.
Lemma Tk_jamming x : wf_Jamming x -> Takes p_jamming x (L_jamming x).
Proof. destruct x; unfold wf_Jamming, p_jamming; prj; intros; unw. tk L_jamming. Qed.
Lemma Tk_fpd x : wf_FPD x -> Takes p_fpd x (L_fpd x).
Proof. destruct x; unfold wf_FPD, p_fpd; prj; intros; unw. tk L_fpd. Qed.
Global Hint Resolve Tk_track Tk_jamming Tk_fpd : takes.
Lemma Tk_beam x : wf_Beam x -> few8 (be_tracks x) -> Takes p_beam x (L_beam x).
Proof.
  destruct x as [n i f d fu hd st j t]; unfold wf_Beam, p_beam; prj; intros; unw. unfold L_beam. prj. rewrite <- (app_nil_r (flat_map L_track _)). tk_norm. do 3 tk_step.
  match goal with |- Takes _ _ (?a :: ?b :: ?c :: ?e :: ?g :: ?r) => change (a :: b :: c :: e :: g :: r) with (L_fpd f ++ r) end. do 6 tk_step.
  match goal with |- Takes _ _ (?a :: ?b :: ?c :: ?e :: ?r) => change (a :: b :: c :: e :: r) with (L_jamming j ++ r) end. repeat tk_step. reflexivity.
Qed.
Lemma Tk_emitter x : wf_EmitterSystem x -> few8 (es_beams x) /\ Forall (fun b => few8 (be_tracks b)) (es_beams x) -> Takes p_emitter_system x (L_emitter x).
Proof.
  destruct x; unfold wf_EmitterSystem, p_emitter_system; prj; intros; unw. apply Takes_nil. unfold L_emitter. prj. tk_norm. do 7 tk_step.
  eapply Takes_bind; [eapply Takes_count2; [exact Tk_beam|assumption|assumption|reflexivity]|]. now apply Takes_ret.
Qed.
Lemma Tk_emission x : wf_EE x -> emission_legible x -> Takes p_emission_body x (L_emission x).
Proof.
  destruct x; unfold wf_EE, emission_legible, p_emission_body; prj; intros; unw. apply Takes_nil. unfold L_emission. prj. tk_norm. do 5 tk_step.
  eapply Takes_bind; [eapply Takes_count2; [exact Tk_emitter|assumption|assumption|reflexivity]|]. now apply Takes_ret.
Qed.

(** ** Underwater acoustic *)
Lemma low_flag (b : bool) n : negb (Z.land (2 * n + if b then 1 else 0) 1 =? 0) = b.
Proof. pose proof (low_bit (2 * n + if b then 1 else 0)) as H. revert H. rewrite Z.add_comm, Z.mul_comm, Z_mod_plus_full. destruct b, (negb _); cbn; intros; congruence. Qed.
Lemma high_part (b : bool) n : Z.shiftr (2 * n + if b then 1 else 0) 1 = n.
Proof. rewrite Z.shiftr_div_pow2 by lia. change (2 ^ 1) with 2. destruct b; Z.div_mod_to_equations; lia. Qed.
Lemma Tk_shaft x : wf_Shaft x -> Takes p_shaft x (L_shaft x).
Proof. destruct x; unfold wf_Shaft, p_shaft; prj; intros; unw. tk L_shaft. Qed.
Lemma Tk_apa x : wf_APA x -> apa_parameter x < 16384 /\ apa_status x < 4 -> Takes p_apa x (L_apa x).
Proof.
  destruct x as [p s v]; unfold wf_APA, p_apa; prj; intros; unw. apply Takes_nil. unfold L_apa; prj; tk_norm. assert (u16 (4 * p + s)) by (unfold u16, u8 in *; lia).
  assert (0 <= p /\ 0 <= s) by (unfold u16, u8 in *; lia). repeat tk_step. change 3 with (Z.ones 2). rewrite Z.land_ones, Z.shiftr_div_pow2 by lia. change (2 ^ 2) with 4.
  f_equal; Z.div_mod_to_equations; lia.
Qed.
Lemma Tk_uaf x : wf_UAFundamental x -> Takes p_ua_fundamental x (L_uaf x).
Proof. destruct x; unfold wf_UAFundamental, p_ua_fundamental; prj; intros; unw. tk L_uaf. Qed.
Lemma Tk_aes x : wf_AES x -> Takes p_aes x (L_aes x).
Proof. destruct x; unfold wf_AES, p_aes; prj; intros; unw. tk L_aes. Qed.
Global Hint Resolve Tk_shaft Tk_apa Tk_uaf Tk_aes : takes.
Lemma Tk_ua_beam x : wf_UABeam x -> Takes p_ua_beam x (L_ua_beam x).
Proof.
  destruct x as [l i f]; unfold wf_UABeam, p_ua_beam; prj; intros; unw. unfold L_ua_beam. prj. do 3 tk_step.
  match goal with |- Takes _ _ ?r => change r with (L_uaf f ++ []) end. repeat tk_step. reflexivity.
Qed.
Global Hint Resolve Tk_ua_beam : takes.
Lemma Tk_ua_system x : wf_UASystem x -> few8 (uas_beams x) -> Takes p_ua_system x (L_ua_system x).
Proof.
  destruct x as [a l b]; unfold wf_UASystem, p_ua_system; prj; intros; unw. unfold L_ua_system. prj. rewrite <- (app_nil_r (flat_map L_ua_beam _)). tk_norm. do 3 tk_step.
  match goal with |- Takes _ _ (?b :: ?c :: ?e :: ?r) => change (b :: c :: e :: r) with (L_aes a ++ r) end. repeat tk_step. reflexivity.
Qed.
Lemma Tk_plant x : wf_PropulsionPlant x -> pp_configuration x < 128 -> Takes p_propulsion_plant x [Int 1 (2 * pp_configuration x + if pp_masker x then 1 else 0)].
Proof.
  destruct x as [c k]; unfold wf_PropulsionPlant, p_propulsion_plant; prj; intros. assert (u8 (2 * c + if k then 1 else 0)) by (unfold u8 in *; destruct k; lia). repeat tk_step.
  now rewrite low_flag, high_part.
Qed.
Lemma Tk_underwater_acoustic x : wf_UA x -> acoustic_legible x -> Takes p_underwater_acoustic_body x (L_underwater_acoustic x).
Proof.
  destruct x; unfold wf_UA, acoustic_legible, p_underwater_acoustic_body; prj; intros; unw. unfold L_underwater_acoustic. prj. rewrite <- (app_nil_r (flat_map L_ua_system _)). tk_norm. do 5 tk_step.
  eapply (Takes_bind _ _ [_]); [apply Tk_plant; assumption|]. do 4 tk_step.
  eapply Takes_bind; [eapply Takes_count2; [exact Tk_apa|assumption|assumption|reflexivity]|].
  eapply Takes_bind; [eapply Takes_count2; [exact Tk_ua_system|assumption|assumption|reflexivity]|]. now apply Takes_ret.
Qed.

(** ** Radio communications *)
Lemma slice_front a l k j i : zlen l = k -> zlen a = j -> 0 <= j -> forall rest, slice_u32 (a ++ l ++ rest) j (j + k) i = POk i (be_val l).
Proof.
  intros Hl Ha Hj rest. unfold slice_u32. rewrite !zlen_app. pose proof (zlen_nonneg rest). destruct (Z.ltb_spec (zlen a + (zlen l + zlen rest)) (j + k)); [lia|].
  do 2 f_equal. unfold zlen in *. replace (Z.to_nat j) with (length a) by lia. rewrite skipn_app, skipn_all, Nat.sub_diag. cbn [app skipn].
  replace (Z.to_nat (j + k - Z.of_nat (length a))) with (length l) by lia. replace (Z.to_nat (j + k - j)) with (length l) by lia.
  rewrite firstn_app, firstn_all, Nat.sub_diag, app_nil_r. reflexivity.
Qed.
Lemma be_back4 v : u32 v -> be_val (be 4 v) = v.
Proof. intros H. apply be_val_be. exact H. Qed.
Lemma Tk_signal x : wf_Signal x -> zlen (Signal_data x) mod 4 = 0 -> zlen (Signal_data x) < 8192 -> scheme_legible (Signal_data x) (Signal_encoding_scheme x) -> Takes p_signal_body x (L_signal x).
Proof.
  destruct x as [e n s tdl sr sm data]; unfold wf_Signal, p_signal_body; prj; intros; unw. pose proof (zlen_nonneg data). unfold L_signal. prj. rewrite whole_pad by (assumption || lia). tk_norm. do 2 tk_step.
  assert (S : forall w, u16 w -> (match s with EsEncodedAudio c t => w = 16384 * c + t | EsRawBinary c t => w = 16384 * c + t
      | EsAppSpecific c _ | EsDatabaseIndex c _ _ _ | EsUnspecified c => w / 16384 = c end) -> forall i, p_encoding_scheme w data i = POk i s).
  { intros w Hw Hs i. unfold p_encoding_scheme. cbv zeta. destruct s as [c t|c t|c u|c a b d|c]; cbn [scheme_legible wf_EncodingScheme] in *; unw; try contradiction; subst c; unfold u16 in *.
    - replace (w / 16384) with 0 by (Z.div_mod_to_equations; lia). unfold pret. do 2 f_equal. Z.div_mod_to_equations; lia.
    - replace (w / 16384) with 1 by (Z.div_mod_to_equations; lia). unfold pret. do 2 f_equal. Z.div_mod_to_equations; lia.
    - rewrite Hs. match goal with H : exists _, _ |- _ => destruct H as [rest ->] end. unfold pbind. rewrite (slice_front [] (be 4 u) 4 0 i (be_zlen 4 u) eq_refl ltac:(lia) rest : slice_u32 (be 4 u ++ rest) 0 4 i = _).
      rewrite be_back4 by assumption. reflexivity.
    - rewrite Hs. match goal with H : exists _, _ |- _ => destruct H as [rest ->] end. unfold pbind. 
      rewrite (slice_front [] (be 4 a) 4 0 i (be_zlen 4 a) eq_refl ltac:(lia) _ : slice_u32 (be 4 a ++ be 4 b ++ be 4 d ++ rest) 0 4 i = _).
      rewrite (slice_front (be 4 a) (be 4 b) 4 4 i (be_zlen 4 b) (be_zlen 4 a) ltac:(lia) _ : slice_u32 (be 4 a ++ be 4 b ++ be 4 d ++ rest) 4 8 i = _).
      rewrite (app_assoc (be 4 a)). rewrite (slice_front (be 4 a ++ be 4 b) (be 4 d) 4 8 i (be_zlen 4 d) ltac:(rewrite zlen_app, !be_zlen; reflexivity) ltac:(lia) _ : slice_u32 ((be 4 a ++ be 4 b) ++ be 4 d ++ rest) 8 12 i = _).
      rewrite !be_back4 by assumption. reflexivity. }
  match goal with |- Takes (pbind be_u16 ?f) ?y (L_scheme s :: ?R) => assert (G : forall w, u16 w -> (match s with EsEncodedAudio c t => w = 16384 * c + t | EsRawBinary c t => w = 16384 * c + t
      | EsAppSpecific c _ | EsDatabaseIndex c _ _ _ | EsUnspecified c => w / 16384 = c end) -> Takes (f w) y R) end.
  { intros w Hw Hs. cbv beta. do 4 tk_step. match goal with H : _ / 8 = zlen data |- _ => rewrite H end. apply Takes_take; [lia|].
    eapply Takes_pure; [intros i; exact (S w Hw Hs i)|]. apply Takes_nofill. now apply Takes_ret. }
  destruct s as [c t|c t|c u|c a b d|c]; cbn [L_scheme scheme_legible wf_EncodingScheme] in *; unw; try contradiction; unfold u16 in *;
   try (apply Takes_u16; [unfold u16; lia|]; apply G; [lia|reflexivity]); apply Takes_field16; intros; apply G; assumption.
Qed.
Lemma Tk_modulation x : wf_ModulationType x -> Takes p_modulation_type x (L_modulation x).
Proof.
  destruct x as [[h n t] mm sy]; unfold wf_ModulationType, p_modulation_type; prj; intros; unw. unfold L_modulation; prj. tk_norm.
  apply Takes_field16. intros w Hw (H1 & H2 & H3). unfold spread_from_u16. rewrite !land_bit by lia. rewrite H1, H2, H3. unfold major_from_bytes.
  destruct mm as [|k d|d]; cbn [wf_MajorModulation] in *; unw; tk_norm.
  - repeat tk_step. reflexivity.
  - assert (u16 k) by (unfold u16; lia). repeat tk_step. destruct (Z.eqb_spec k 0); [lia|]. destruct (Z.leb_spec 1 k); [|lia]. destruct (Z.leb_spec k 8); [reflexivity|lia].
  - tk_step. repeat tk_step. destruct (Z.eqb_spec w0 0); [lia|]. destruct (Z.leb_spec 1 w0); [|lia]. destruct (Z.leb_spec w0 8); [lia|reflexivity].
Qed.
Lemma Tk_crypto x : wf_CryptoKeyId x -> ck_key x < 32768 -> Takes p_crypto_key_id x [Int 2 (2 * ck_key x + if ck_diphase x then 1 else 0)].
Proof.
  destruct x as [c k]; unfold wf_CryptoKeyId, p_crypto_key_id, crypto_from_u16; prj; intros. assert (u16 (2 * c + if k then 1 else 0)) by (unfold u16 in *; destruct k; lia). repeat tk_step.
  now rewrite low_flag, high_part.
Qed.
Lemma Tk_bap x : wf_BAP x -> Takes p_beam_antenna_pattern x (L_pattern x).
Proof. destruct x; unfold wf_BAP, p_beam_antenna_pattern; prj; intros; unw. tk L_pattern. Qed.
Lemma Tk_vtp m x : wf_VTP x -> whole 8 (vtp_fields x) -> Takes (p_vtp m) x (L_vtp x).
Proof.
  destruct x as [t f]; unfold wf_VTP, whole, p_vtp, L_vtp; prj; intros; unw. pose proof (zlen_nonneg f).
  rewrite whole_pad by (assumption || lia). tk_norm. do 2 tk_step. eapply Takes_pure; [intros i; rewrite parith_ok by lia; reflexivity|]. apply Takes_take; [lia|]. apply Takes_nofill. now apply Takes_ret.
Qed.
Global Hint Resolve Tk_modulation Tk_crypto Tk_bap Tk_vtp : takes.
Lemma Tk_modulation_parameters o : match o with Some l => 0 < zlen l < 256 | None => True end ->
  Takes (p_modulation_parameters (zlen (match o with Some l => l | None => [] end))) o [Raw (match o with Some l => l | None => [] end)].
Proof.
  unfold p_modulation_parameters. destruct o as [l|]; intros H.
  - destruct (Z.ltb_spec 0 (zlen l)); [|lia]. apply Takes_take; [lia|]. now apply Takes_ret.
  - cbn. intros os r B0 S. apply shows_one in S. cbn [accepts Raw] in S. subst os. reflexivity.
Qed.
Lemma Tk_pattern w o : u16 w -> wf_option wf_BAP o -> (o = None <-> w = 0) -> Takes (p_antenna_pattern w) o (match o with Some b => L_pattern b | None => [] end).
Proof.
  unfold u16, p_antenna_pattern. destruct o as [b|]; cbn [wf_option]; intros Hw Hb H.
  - destruct (Z.ltb_spec 0 w); [|assert (w = 0) as E by lia; apply H in E; discriminate]. apply Takes_nil. eapply Takes_bind; [now apply Tk_bap|]. now apply Takes_ret.
  - rewrite (proj1 H eq_refl). now apply Takes_ret.
Qed.
Lemma some_few (o : option (list Z)) : match o with Some l => 0 < zlen l < 256 | None => True end -> u8 (zlen (match o with Some l => l | None => [] end)).
Proof. unfold u8. destruct o as [l|]; intros H; [lia|]. change (zlen []) with 0. lia. Qed.
Lemma Tk_transmitter m v x : wf_Transmitter x -> transmitter_legible v x -> Takes (p_transmitter_body m v) x (L_transmitter v x).
Proof.
  destruct x as [e rn ty st inp al ra pt fr bw pw mt cs ck mp ap vt]; unfold wf_Transmitter, transmitter_legible, p_transmitter_body; prj; intros; unw. unfold L_transmitter; prj. cbv zeta.
  pose proof (zlen_nonneg vt). rewrite <- (app_nil_r (flat_map L_vtp _)). tk_norm. do 15 tk_step.
  eapply (Takes_bind _ _ [_]); [apply Tk_crypto; assumption|].
  assert (u8 (zlen match mp with Some l => l | None => [] end)) by (apply some_few; assumption). do 3 tk_step.
  eapply (Takes_bind _ _ [_]); [apply Tk_modulation_parameters; assumption|].
  eapply Takes_bind; [apply Tk_pattern; assumption|].
  eapply Takes_bind; [eapply Takes_count2; [intros a; apply (Tk_vtp m)|assumption|assumption|]|now apply Takes_ret].
  match goal with H : v = 7 \/ _ |- _ => destruct H as [-> | ->] end.
  - change (7 =? 7) with true. cbv iota. auto.
  - destruct (Z.eqb_spec v 7); [|reflexivity]. subst. auto.
Qed.
(** ** Is group of *)
Lemma Tk_ged_base d x : wf_GEDBase x -> ea_kind (gb_appearance x) = appearance_kind 1 d -> Takes (p_ged_base d) x (L_ged_base x).
Proof.
  destruct x as [i x y z [k w] a b c]; unfold wf_GEDBase, wf_EntityAppearance, p_ged_base, p_entity_appearance; prj; cbn [ea_kind ea_word]; intros; unw. unfold L_ged_base; prj. cbn [ea_word]. do 4 tk_step.
  apply Takes_assoc. tk_step. eapply Takes_pure; [reflexivity|]. repeat tk_step. congruence.
Qed.
Lemma Tk_ged_ground x : wf_GEDGround x -> ea_kind (gb_appearance (gg_base x)) = ALand -> Takes p_ged_ground x (L_ged_ground x).
Proof. destruct x; unfold wf_GEDGround, p_ged_ground; prj; intros; unw. apply Takes_nil. unfold L_ged_ground; prj. tk_norm. eapply Takes_bind; [apply Tk_ged_base; assumption|]. repeat tk_step. reflexivity. Qed.
Lemma Tk_ged_air x : wf_GEDAir x -> ea_kind (gb_appearance (ga_base x)) = AAir -> Takes p_ged_air x (L_ged_air x).
Proof. destruct x; unfold wf_GEDAir, p_ged_air; prj; intros; unw. apply Takes_nil. unfold L_ged_air; prj. tk_norm. eapply Takes_bind; [apply Tk_ged_base; assumption|]. repeat tk_step. reflexivity. Qed.
Lemma Tk_quad x : wf_Quad x -> Takes p_quad x (L_quad x).
Proof. destruct x; unfold wf_Quad, p_quad; prj; intros; unw. tk L_quad. Qed.
Global Hint Resolve Tk_ged_ground Tk_ged_air Tk_quad : takes.
Lemma Tk_ged c x : wf_GED x -> ged_ok c x -> Takes (p_ged c) x (L_ged x).
Proof.
  unfold p_ged. destruct x; cbn [wf_GED ged_ok L_ged]; intros; unw; try subst c; apply Takes_nil; tk_norm; try (repeat tk_step; reflexivity).
  - assert (E : p_ged c = pret GUndefined).
    { unfold p_ged. destruct c as [|q|q]; try reflexivity. do 4 (destruct q as [q|q|]; try reflexivity; try (exfalso; lia)). }
    unfold p_ged in E. rewrite E. now apply Takes_ret.
  - eapply Takes_bind; [apply Tk_ged_base; assumption|]. repeat tk_step. reflexivity.
Qed.
Lemma Tk_is_group_of x : wf_IsGroupOf x -> few8 (IsGroupOf_descriptions x) -> Forall (ged_ok (IsGroupOf_category x)) (IsGroupOf_descriptions x) -> Takes p_is_group_of_body x (L_is_group_of x).
Proof.
  destruct x; unfold wf_IsGroupOf, p_is_group_of_body; prj; intros; unw. apply Takes_nil. unfold L_is_group_of; prj. tk_norm. do 6 tk_step.
  eapply Takes_bind; [eapply Takes_count2; [intros a; apply Tk_ged|assumption|assumption|reflexivity]|]. now apply Takes_ret.
Qed.

(** ** IFF *)
Lemma Takes_bits8 {B} mask force w (f : Z -> bparser B) x L : Takes (f w) x L -> Takes (pbind (p_bits8 mask force) f) x (Flags 1 mask force w :: L).
Proof. intros H. unfold p_bits8. apply Takes_assoc. apply Takes_field8. intros v _ E. eapply Takes_pure; [intros i; unfold pret; rewrite E; reflexivity|exact H]. Qed.
Lemma Takes_bits16 {B} mask force w (f : Z -> bparser B) x L : Takes (f w) x L -> Takes (pbind (p_bits16 mask force) f) x (Flags 2 mask force w :: L).
Proof. intros H. unfold p_bits16. apply Takes_assoc. apply Takes_field16. intros v _ E. eapply Takes_pure; [intros i; unfold pret; rewrite E; reflexivity|exact H]. Qed.
Ltac tkf := repeat first [apply Takes_bits8 | apply Takes_bits16 | tk_step].
Lemma Tk_layer_header x : wf_LayerHeader x -> Takes p_layer_header x (L_layer_header x).
Proof. destruct x; unfold wf_LayerHeader, p_layer_header; prj; intros; unw. tk L_layer_header. Qed.
Lemma Tk_iff_parameter x : wf_IffParameter x -> Takes p_iff_parameter x (L_iff_parameter x).
Proof. destruct x; unfold wf_IffParameter, p_iff_parameter; prj; intros; unw. tk L_iff_parameter. Qed.
Lemma Tk_system x : wf_SystemId x -> Takes p_system_id x (L_system x).
Proof. destruct x; unfold wf_SystemId, p_system_id; prj; intros; unw. tk L_system. Qed.
Lemma Tk_fund x : wf_FundOpData x -> Takes p_fund_op_data x (L_fund x).
Proof. destruct x; unfold wf_FundOpData, p_fund_op_data; prj; intros; unw. unfold L_fund; prj. tkf. reflexivity. Qed.
Global Hint Resolve Tk_layer_header Tk_iff_parameter Tk_system Tk_fund : takes.
Lemma Tk_iff_record x : wf_IffDataRecord x -> whole 4 (idr_fields x) -> Takes p_iff_data_record x (L_iff_record x).
Proof.
  destruct x as [t f]; unfold wf_IffDataRecord, whole, p_iff_data_record, L_iff_record; prj; intros; unw. pose proof (zlen_nonneg f).
  rewrite whole_pad by (assumption || lia). tk_norm. repeat tk_step. apply Takes_nofill. now apply Takes_ret.
Qed.
Lemma Tk_iff_records l : Forall wf_IffDataRecord l -> iff_records_legible l -> Takes p_iff_data_specification l (L_iff_records l).
Proof.
  unfold iff_records_legible, p_iff_data_specification; intros; unw. apply Takes_nil. unfold L_iff_records. tk_norm. tk_step.
  eapply Takes_bind; [eapply Takes_count2; [exact Tk_iff_record|assumption|assumption|reflexivity]|]. now apply Takes_ret.
Qed.
Global Hint Resolve Tk_iff_records : takes.
Lemma Tk_layer_2 x : wf_IffLayer2 x -> few16 (l2_params x) -> Takes p_iff_layer_2 x (L_layer_2 x).
Proof. destruct x; unfold wf_IffLayer2, p_iff_layer_2; prj; intros; unw. tk L_layer_2. Qed.
Lemma Tk_mode_5 t x : wf_Mode5BasicData x -> mode_5_legible t x -> Takes (p_mode5_basic_data t) x (L_mode_5 x).
Proof.
  unfold p_mode5_basic_data. destruct x as [x|x]; cbn [wf_Mode5BasicData mode_5_legible L_mode_5]; intros Hw Ht.
  - assert (E : is_transponder t = false). { unfold is_interrogator in Ht. unfold is_transponder. rewrite !orb_true_iff, !Z.eqb_eq in Ht. rewrite !orb_false_iff, !Z.eqb_neq. lia. }
    rewrite E, Ht. apply Takes_nil. eapply Takes_bind; [|now apply Takes_ret]. destruct x; unfold wf_M5I, p_mode5_interrogator in *; prj; unw. tk_norm. tkf. reflexivity.
  - rewrite Ht. apply Takes_nil. eapply Takes_bind; [|now apply Takes_ret]. destruct x; unfold wf_M5T, p_mode5_transponder in *; prj; unw. tk_norm. tkf. reflexivity.
Qed.
Lemma Tk_layer_3 t x : wf_IffLayer3 x -> mode_5_legible t (l3_basic x) -> iff_records_legible (l3_records x) -> Takes (p_iff_layer_3 t) x (L_layer_3 x).
Proof.
  destruct x; unfold wf_IffLayer3, p_iff_layer_3; prj; intros; unw. apply Takes_nil. unfold L_layer_3; prj. tk_norm. do 2 tk_step. eapply Takes_bind; [now apply Tk_mode_5|]. repeat tk_step. reflexivity.
Qed.
Lemma Tk_mode_s t x : wf_ModeSBasicData x -> mode_s_legible t x -> Takes (p_modes_basic_data t) x (L_mode_s x).
Proof.
  unfold p_modes_basic_data. destruct x as [x|x]; cbn [wf_ModeSBasicData mode_s_legible L_mode_s]; intros Hw Ht; [|contradiction].
  assert (E : is_transponder t = false). { unfold is_interrogator in Ht. unfold is_transponder. rewrite !orb_true_iff, !Z.eqb_eq in Ht. rewrite !orb_false_iff, !Z.eqb_neq. lia. }
  rewrite E, Ht. apply Takes_nil. eapply Takes_bind; [|now apply Takes_ret]. destruct x; unfold wf_MSI, p_modes_interrogator in *; prj; unw. tk_norm. tkf. reflexivity.
Qed.
Lemma Tk_layer_4 t x : wf_IffLayer4 x -> mode_s_legible t (l4_basic x) -> iff_records_legible (l4_records x) -> Takes (p_iff_layer_4 t) x (L_layer_4 x).
Proof.
  destruct x; unfold wf_IffLayer4, p_iff_layer_4; prj; intros; unw. apply Takes_nil. unfold L_layer_4; prj. tk_norm. do 2 tk_step. eapply Takes_bind; [now apply Tk_mode_s|]. repeat tk_step. reflexivity.
Qed.
Lemma Tk_layer_5 x : wf_IffLayer5 x -> iff_records_legible (l5_records x) -> Takes p_iff_layer_5 x (L_layer_5 x).
Proof. destruct x; unfold wf_IffLayer5, p_iff_layer_5; prj; intros; unw. apply Takes_nil. unfold L_layer_5; prj. tk_norm. tkf. reflexivity. Qed.
Lemma Tk_option {A} b (p : bparser A) (L : A -> list item) (C D : A -> Prop) o : (forall a, C a -> D a -> Takes p a (L a)) -> wf_option C o -> in_layer D o -> b = match o with Some _ => true | None => false end ->
  Takes (p_option b p) o (L_optional L o).
Proof.
  intros H Hc Hd ->. unfold p_option. destruct o as [a|]; cbn [L_optional wf_option in_layer] in *; [|now apply Takes_ret]. apply Takes_nil. eapply Takes_bind; [now apply H|now apply Takes_ret].
Qed.
Lemma Tk_iff x : wf_Iff x -> iff_legible x -> Takes p_iff_body x (L_iff x).
Proof.
  destruct x as [e ev an sy de sp da a2 a3 a4 a5]; unfold wf_Iff, iff_legible, present, p_iff_body; cbv zeta; prj; intros; unw. unfold L_iff; cbv zeta; prj.
  change (Takes ?p ?y ?L) with (Takes p y L). rewrite <- (app_nil_r (L_optional L_layer_5 _)). tk_norm. do 3 tk_step.
  match goal with |- Takes _ _ (?a :: ?b :: ?c :: ?e :: ?r) => change (a :: b :: c :: e :: r) with (L_system sy ++ r) end. do 3 tk_step.
  match goal with |- Takes _ _ (?a :: ?b :: ?c :: ?e :: ?f :: ?g :: ?h :: ?i :: ?j :: ?k :: ?r) => change (a :: b :: c :: e :: f :: g :: h :: i :: j :: k :: r) with (L_fund da ++ r) end. tk_step.
  eapply Takes_bind; [eapply Tk_option; [exact Tk_layer_2|eassumption|eassumption|eassumption]|].
  eapply Takes_bind; [eapply Tk_option with (C := wf_IffLayer3) (D := fun l => mode_5_legible (si_type sy) (l3_basic l) /\ iff_records_legible (l3_records l)); [intros a Ha [? ?]; now apply Tk_layer_3|assumption|assumption|assumption]|].
  eapply Takes_bind; [eapply Tk_option with (C := wf_IffLayer4) (D := fun l => mode_s_legible (si_type sy) (l4_basic l) /\ iff_records_legible (l4_records l)); [intros a Ha [? ?]; now apply Tk_layer_4|assumption|assumption|assumption]|].
  eapply Takes_bind; [eapply Tk_option; [exact Tk_layer_5|eassumption|eassumption|eassumption]|]. now apply Takes_ret.
Qed.
(** ** Header, body, PDU *)
Definition repadded (h : PduHeader) pad := MkPduHeader (h_version h) (h_exercise h) (h_type h) (h_family h) (h_time h) (h_length h) (h_status h) pad.
Global Hint Resolve Tk_action_response_r Tk_comment Tk_comment_r Tk_data_query Tk_data_query_r Tk_record_query_r Tk_set_record_r Tk_transfer_ownership Tk_fire Tk_detonation
  Tk_entity_state_update Tk_sees Tk_attribute Tk_entity_state Tk_aggregate_state Tk_emission Tk_underwater_acoustic Tk_signal Tk_transmitter Tk_is_group_of Tk_iff : takes.
Lemma Tk_body m h b : wf_body b -> body_legible h b -> Takes (p_body m h) b (L_body (h_version h) b).
Proof.
  destruct b; cbn [wf_body body_legible L_body]; intros Hw [Ht Hl]; try contradiction.
  1: { rewrite p_body_other by (unfold other_legible in Ht; tauto). apply Takes_pmap. now apply Tk_other. }
  all: try match type of Ht with _ \/ _ => destruct Ht as [Ht|Ht] end.
  all: unfold p_body; cbv zeta; rewrite Ht; cbn [body_type Z.eqb Pos.eqb]; apply Takes_pmap; unw; solve [auto 2 with takes].
Qed.
Lemma Tk_header h os r : wf_PduHeader h -> (h_status h = None <-> 1 <= h_version h <= 6) -> bytes os -> shows (L_header h) os -> exists pad, p_header (os ++ r) = POk r (repadded h pad).
Proof.
  destruct h as [v e ty f t l s pad]. unfold wf_PduHeader, repadded. prj. intros (Hv & He & Hty & Hf & Ht & Hl & _) Hs B0 S. unfold L_header in S. prj.
  change ([Int 1 v; Int 1 e; Int 1 ty; Int 1 f; Int 4 t; Int 2 l]) with ([Int 1 v; Int 1 e; Int 1 ty; Int 1 f; Int 4 t; Int 2 l]) in S.
  apply shows_app_inv in S. destruct S as (a & b & -> & Sa & Sb). apply bytes_app_inv in B0. destruct B0 as [Ba Bb].
  assert (E : p_header (a ++ b ++ r) = (sp <- (if rng 1 5 v then (pad <- be_u16;; pret (None, pad)) else if v =? 6 then (pad <- be_u16;; pret (None, pad)) else if v =? 7 then p_status ty else p_status ty);;
    pret (MkPduHeader v e ty f t l (fst sp) (snd sp)))%parse (b ++ r)).
  { unfold p_header.
    assert (T : forall A (g : Z -> Z -> Z -> Z -> Z -> Z -> bparser A), (v <- be_u8;; e <- be_u8;; ty <- be_u8;; f <- be_u8;; t <- be_u32;; l <- be_u16;; g v e ty f t l)%parse (a ++ b ++ r) = g v e ty f t l (b ++ r)).
    { intros A g. assert (T : Takes (v <- be_u8;; e <- be_u8;; ty <- be_u8;; f <- be_u8;; t <- be_u32;; l <- be_u16;; pret (v, e, ty, f, t, l))%parse (v, e, ty, f, t, l) [Int 1 v; Int 1 e; Int 1 ty; Int 1 f; Int 4 t; Int 2 l]).
      { repeat tk_step. reflexivity. }
      specialize (T a (b ++ r) Ba Sa). unfold pbind, pret in *.
      repeat match type of T with match ?p ?i with _ => _ end = _ => destruct (p i); try discriminate end. injection T as -> -> -> -> -> -> ->. reflexivity. }
    apply T. }
  rewrite <- app_assoc, E. clear E. unfold pbind at 1. destruct s as [st|].
  - assert (Hn : ~ 1 <= v <= 6) by (intros G; apply Hs in G; discriminate).
    assert (Ev : (if rng 1 5 v then (pad <- be_u16;; pret (None, pad)) else if v =? 6 then (pad <- be_u16;; pret (None, pad)) else if v =? 7 then p_status ty else p_status ty)%parse = p_status ty).
    { unfold rng. destruct (Z.leb_spec 1 v), (Z.leb_spec v 5), (Z.eqb_spec v 6), (Z.eqb_spec v 7); cbn [andb]; try reflexivity; exfalso; lia. }
    rewrite Ev. clear Ev. apply (shows_app_inv [_] [_]) in Sb. destruct Sb as (c & d & -> & Sc & Sd). apply shows_one in Sc, Sd. destruct Sc as [Lc Pc], Sd as [Ld _].
    exists (be_val d). unfold p_status, pbind, be_u8. rewrite <- app_assoc, (read_u 1 c), (read_u 1 d) by assumption. unfold pret. cbn [fst snd h_type] in *. rewrite Pc. reflexivity.
  - assert (Hn : 1 <= v <= 6) by (apply Hs; reflexivity).
    assert (Ev : (if rng 1 5 v then (pad <- be_u16;; pret (None, pad)) else if v =? 6 then (pad <- be_u16;; pret (None, pad)) else if v =? 7 then p_status ty else p_status ty)%parse = (pad <- be_u16;; pret (None, pad))%parse).
    { unfold rng. destruct (Z.leb_spec 1 v), (Z.leb_spec v 5), (Z.eqb_spec v 6); cbn [andb]; try reflexivity; exfalso; lia. }
    rewrite Ev. clear Ev. apply shows_one in Sb. destruct Sb as [Lb _]. exists (be_val b). unfold pbind, be_u16. rewrite (read_u 2 b) by assumption. reflexivity.
Qed.
Lemma Tk_pdu m p os r : wf_Pdu p -> legible p -> bytes os -> shows (L_pdu p) os -> exists q, p_pdu m (os ++ r) = POk r q /\ same_but_padding p q.
Proof.
  destruct p as [h b]. unfold wf_Pdu, legible, L_pdu, same_but_padding. cbn [pdu_header pdu_body]. intros [Wh Wb] [Hs Hb] B0 S.
  apply shows_app_inv in S. destruct S as (a & c & -> & Sa & Sc). apply bytes_app_inv in B0. destruct B0 as [Ba Bc].
  rewrite <- app_assoc. destruct (Tk_header h a (c ++ r) Wh Hs Ba Sa) as [pad E]. exists (MkPdu (repadded h pad) b). unfold p_pdu, pbind. rewrite E.
  change (p_body m (repadded h pad)) with (p_body m h). rewrite (Tk_body m h b Wb Hb c r Bc Sc). split; [reflexivity|]. split; reflexivity.
Qed.

(** * Parsers and the wire layout, continued: the remaining bodies, the PDU and the packet *)
From Coq Require Import ZArith List Lia Bool.
From Verif Require Import Base Utf8 DisCommon DisLists DisHeader DisSimman DisLogistics DisWarfare DisEntity DisEmission DisRadio DisIff DisPdu DisPacket Parsed SpecLayout Layout LayoutP.
Import ListNotations. Open Scope Z_scope.

(** ** Entity state *)
Lemma raw_text l n os : zlen l = n -> accepts (Raw l) os -> accepts (Text n (sanitize_marking l)) os.
Proof. cbn [accepts Raw Text]. intros H ->. auto. Qed.
Lemma Sh_marking n : 0 <= n -> Shows (p_marking n) any (fun k => [Int 1 (mk_charset k); Text n (mk_string k)]) any.
Proof.
  intros Hn. unfold p_marking. apply Shows_after; repeat sh_step; [intros; all_any|intros; prj; inc_norm|exact I].
  apply Inc_cons; [inc_item|]. apply Inc_cons; [|apply Inc_refl]. intros os. apply raw_text. lia.
Qed.
Global Hint Extern 1 (Shows (p_marking _) _ _ _) => apply Sh_marking; lia : shows.
Definition L_dr_other d := match d with
   | DrNone b => [Raw b]
   | DrEuler yaw pitch roll => [Ignored 1 1; Pad 2; Int 4 yaw; Int 4 pitch; Int 4 roll]
   | DrQuaternion u0 u1 u2 u3 => [Ignored 1 2; Int 2 u0; Int 4 u1; Int 4 u2; Int 4 u3] end.
Lemma Sh_dr_other a : Shows (p_dr_other a) any L_dr_other any.
Proof. unfold p_dr_other. apply Shows_after; repeat sh_step; try exact I; try (intros; all_any; fail); intros; unfold L_dr_other; inc. Qed.
Global Hint Resolve Sh_dr_other : shows.
Definition L_dr d := [Int 1 (dr_algorithm d)] ++ L_dr_other (dr_other d) ++ L_vector (dr_acceleration d) ++ L_vector (dr_velocity d).
Lemma Sh_dr : Shows p_dr_parameters any L_dr any.
Proof. unfold p_dr_parameters. apply Shows_after; repeat sh_step; [intros; all_any|intros; unfold L_dr; prj; inc|exact I]. Qed.
Global Hint Resolve Sh_dr : shows.
Lemma Sh_capabilities v k d : Shows (p_capabilities v k d) any (fun c => [Field 4 (ec_word c) (capabilities_word v k (ec_word c))]) any.
Proof.
  unfold p_capabilities. apply Shows_after; repeat sh_step; try exact I; try (intros; all_any; fail); intros; inc_norm; (apply Inc_cons; [|apply Inc_refl]); intros os;
    (apply int_field; [assumption|]); unfold capabilities_word; rewrite Heqb.
  - unfold capabilities_from_bytes. intros Hk. apply Z.eqb_neq in Hk. rewrite Hk. reflexivity.
  - reflexivity.
Qed.
Global Hint Resolve Sh_capabilities : shows.
Lemma Sh_entity_state v : Shows (p_entity_state_body v) (fun x => reads_body (BEntityState x)) (L_entity_state v) any.
Proof.
  unfold p_entity_state_body. apply Shows_after; repeat sh_step; [cbn [reads_body]; prj; intros; conds|intros; unfold L_entity_state, L_app, L_dr, L_dr_other; prj; inc|exact I].
Qed.

(** ** Aggregate state *)
Lemma Sh_aggregate_type : Shows p_aggregate_type any L_aggregate_type any.
Proof. unfold p_aggregate_type. apply Shows_after; repeat sh_step; [intros; all_any|intros; unfold L_aggregate_type; prj; inc|exact I]. Qed.
Global Hint Resolve Sh_aggregate_type : shows.
Lemma Sh_silent_aggregate : Shows p_silent_aggregate any L_silent_aggregate any.
Proof. unfold p_silent_aggregate. apply Shows_after; repeat sh_step; [intros; all_any|intros; unfold L_silent_aggregate; prj; inc|exact I]. Qed.
Global Hint Resolve Sh_silent_aggregate : shows.
Lemma flat_map_app l : flat_map L_app l = map (fun a => Int 4 (ea_word a)) l. Proof. induction l; cbn [flat_map map app L_app]; congruence. Qed.
Lemma Sh_silent_entity : Shows p_silent_entity any L_silent_entity any.
Proof. unfold p_silent_entity. apply Shows_after; repeat sh_step; [intros; all_any|intros; unfold L_silent_entity; prj; rewrite <- flat_map_app; inc|exact I]. Qed.
Global Hint Resolve Sh_silent_entity : shows.
Lemma Sh_agg m a b : Shows (plift (agg_intermediate m a b)) any (fun _ => []) (fun p => snd p = (- (6 * (zlen a + zlen b))) mod 4).
Proof. apply Shows_plift. intros bs p E. now apply agg_val in E. Qed.
Global Hint Resolve Sh_agg : shows.
Lemma Sh_aggregate_state m : Shows (p_aggregate_state_body m) any L_aggregate_state any.
Proof.
  unfold p_aggregate_state_body. apply Shows_after; repeat sh_step; [intros; all_any|intros; unfold L_aggregate_state; prj|exact I].
  match goal with H : snd _ = _ |- _ => rewrite H in * end.
  match goal with H : zlen _ = Z.max 0 (_ mod 4) |- _ => rewrite Z.max_r in H by (apply Z.mod_pos_bound; lia) end. inc.
Qed.

(** ** Emission *)
Lemma Sh_track : Shows p_track_jam any L_track any.
Proof. unfold p_track_jam. apply Shows_after; repeat sh_step; [intros; all_any|intros; unfold L_track; prj; inc|exact I]. Qed.
Definition L_jamming j := [Int 1 (jt_kind j); Int 1 (jt_category j); Int 1 (jt_subcategory j); Int 1 (jt_specific j)].
Lemma Sh_jamming : Shows p_jamming any L_jamming any.
Proof. unfold p_jamming. apply Shows_after; repeat sh_step; [intros; all_any|intros; unfold L_jamming; prj; inc|exact I]. Qed.
Definition L_fpd f := [Int 4 (fp_frequency f); Int 4 (fp_range f); Int 4 (fp_power f); Int 4 (fp_prf f); Int 4 (fp_width f)].
Lemma Sh_fpd : Shows p_fpd any L_fpd any.
Proof. unfold p_fpd. apply Shows_after; repeat sh_step; [intros; all_any|intros; unfold L_fpd; prj; inc|exact I]. Qed.
Global Hint Resolve Sh_track Sh_jamming Sh_fpd : shows.
Lemma Sh_beam : Shows p_beam any L_beam any.
Proof. unfold p_beam. apply Shows_after; repeat sh_step; [intros; all_any|intros; unfold L_beam, L_fpd, L_jamming; prj; inc|exact I]. Qed.
Global Hint Resolve Sh_beam : shows.
Lemma Sh_emitter : Shows p_emitter_system any L_emitter any.
Proof. unfold p_emitter_system. apply Shows_after; repeat sh_step; [intros; all_any|intros; unfold L_emitter; prj; inc|exact I]. Qed.
Global Hint Resolve Sh_emitter : shows.
Lemma Sh_emission : Shows p_emission_body any L_emission any.
Proof. unfold p_emission_body. apply Shows_after; repeat sh_step; [intros; all_any|intros; unfold L_emission; prj; inc|exact I]. Qed.

(** ** Underwater acoustic *)
Lemma low_bit v : (if negb (Z.land v 1 =? 0) then 1 else 0) = v mod 2.
Proof. change 1 with (Z.ones 1) at 1. rewrite Z.land_ones by lia. change (2 ^ 1) with 2. pose proof (Z.mod_pos_bound v 2). destruct (Z.eqb_spec (v mod 2) 0); cbn [negb]; lia. Qed.
Lemma Sh_plant : Shows p_propulsion_plant any (fun p => [Int 1 (2 * pp_configuration p + if pp_masker p then 1 else 0)]) any.
Proof.
  unfold p_propulsion_plant. apply Shows_after; repeat sh_step; [intros; all_any|intros; prj; inc_norm|exact I]. apply Inc_cons; [|apply Inc_refl]. intros os.
  apply int_eq. rewrite low_bit, Z.shiftr_div_pow2 by lia. change (2 ^ 1) with 2. Z.div_mod_to_equations; lia.
Qed.
Lemma Sh_shaft : Shows p_shaft any L_shaft any.
Proof. unfold p_shaft. apply Shows_after; repeat sh_step; [intros; all_any|intros; unfold L_shaft; prj; inc|exact I]. Qed.
Lemma Sh_apa : Shows p_apa any L_apa any.
Proof.
  unfold p_apa. apply Shows_after; repeat sh_step; [intros; all_any|intros; unfold L_apa; prj; inc_norm|exact I]. apply Inc_cons; [|inc]. intros os.
  apply int_eq. change 3 with (Z.ones 2). rewrite Z.land_ones, Z.shiftr_div_pow2 by lia. change (2 ^ 2) with 4. Z.div_mod_to_equations; lia.
Qed.
Definition L_uaf f := [Int 2 (uaf_index f); Int 2 (uaf_scan f); Int 4 (uaf_azc f); Int 4 (uaf_azw f); Int 4 (uaf_dec f); Int 4 (uaf_dew f)].
Lemma Sh_uaf : Shows p_ua_fundamental any L_uaf any.
Proof. unfold p_ua_fundamental. apply Shows_after; repeat sh_step; [intros; all_any|intros; unfold L_uaf; prj; inc|exact I]. Qed.
Definition L_aes a := [Int 2 (aes_name a); Int 1 (aes_function a); Int 1 (aes_id a)].
Lemma Sh_aes : Shows p_aes any L_aes any.
Proof. unfold p_aes. apply Shows_after; repeat sh_step; [intros; all_any|intros; unfold L_aes; prj; inc|exact I]. Qed.
Global Hint Resolve Sh_plant Sh_shaft Sh_apa Sh_uaf Sh_aes : shows.
Lemma Sh_ua_beam : Shows p_ua_beam any L_ua_beam any.
Proof. unfold p_ua_beam. apply Shows_after; repeat sh_step; [intros; all_any|intros; unfold L_ua_beam, L_uaf; prj; inc|exact I]. Qed.
Global Hint Resolve Sh_ua_beam : shows.
Lemma Sh_ua_system : Shows p_ua_system any L_ua_system any.
Proof. unfold p_ua_system. apply Shows_after; repeat sh_step; [intros; all_any|intros; unfold L_ua_system, L_aes; prj; inc|exact I]. Qed.
Global Hint Resolve Sh_ua_system : shows.
Lemma Sh_underwater_acoustic : Shows p_underwater_acoustic_body any L_underwater_acoustic any.
Proof. unfold p_underwater_acoustic_body. apply Shows_after; repeat sh_step; [intros; all_any|intros; unfold L_underwater_acoustic; prj; inc|exact I]. Qed.

(** ** Radio communications *)
Lemma Shows_slice d a b : Shows (slice_u32 d a b) any (fun _ => []) any.
Proof. apply Shows_pure. intros i r x. unfold slice_u32. destruct (_ <? _); intros E; [discriminate|]. injection E as <- _. split; [reflexivity|exact I]. Qed.
Lemma Shows_scheme v data : u16 v -> Shows (p_encoding_scheme v data) any (fun _ => []) (fun e => forall os, accepts (Int 2 v) os -> accepts (L_scheme e) os).
Proof.
  intros Hv. unfold p_encoding_scheme. cbv zeta. unfold u16 in Hv.
  assert (Hc : 0 <= v / 16384 < 4) by (Z.div_mod_to_equations; lia).
  assert (E : v = 16384 * (v / 16384) + v mod 16384) by (Z.div_mod_to_equations; lia).
  assert (D : forall os, accepts (Int 2 v) os -> accepts (Field 2 (16384 * (v / 16384)) (fun w => w / 16384 = v / 16384)) os).
  { intros os. apply int_field; [exact Hv|reflexivity]. }
  assert (N : forall os, accepts (Int 2 v) os -> accepts (Int 2 (16384 * (v / 16384) + v mod 16384)) os) by (intros os; apply int_eq, E).
  set (c := v / 16384) in *. clearbody c.
  assert (Hcc : c = 0 \/ c = 1 \/ c = 2 \/ c = 3) by lia. apply Shows_after.
  destruct Hcc as [-> | [-> | [-> | ->]]]; cbn [Z.eqb];
    repeat first [eapply After_bind; [apply Shows_slice|intros] | apply After_ret; [intros; all_any|intros; apply Inc_refl|assumption]].
Qed.
Global Hint Extern 1 (Shows (p_encoding_scheme _ _) _ _ _) => apply Shows_scheme; assumption : shows.
Lemma Sh_signal : Shows p_signal_body (fun x => reads_body (BSignal x)) L_signal any.
Proof.
  unfold p_signal_body. apply Shows_after; repeat sh_step; [cbn [reads_body]; prj; intros; conds| |exact I].
  cbn [reads_body]. prj. intros Hm. unfold L_signal. prj. unfold u16 in *.
  match goal with |- context [Int 2 ?b :: Int 2 ?s :: [Raw ?d]] => idtac | _ => idtac end. inc_norm.
  match goal with H : zlen ?d = Z.max 0 (?b / 8) |- _ => rewrite Z.max_r in H by (apply Z.div_pos; lia); assert (E : (- zlen d) mod 4 = 0) by (Z.div_mod_to_equations; lia); rewrite E end.
  apply Inc_app; [apply Inc_refl|]. apply Inc_cons; [inc_item|]. apply Inc_cons; [assumption|]. apply Inc_cons; [inc_item|]. apply Inc_cons; [inc_item|].
  apply Inc_cons; [intros os; apply int_field; [assumption|congruence]|]. apply Inc_cons; [inc_item|].
  match goal with |- Inc [?a] [?b; ?c] => apply (Inc_app [a] [b] [] [c]); [apply Inc_refl|] end.
  intros os (ps & -> & Hps). inversion Hps; subst. apply shows_one. reflexivity.
Qed.
Lemma land_bit v k : 0 <= k -> negb (Z.land (Z.shiftr v k) 1 =? 0) = Z.testbit v k.
Proof.
  intros Hk. replace (Z.testbit v k) with (Z.testbit (Z.shiftr v k) 0) by (rewrite Z.shiftr_spec by lia; f_equal; lia).
  set (w := Z.shiftr v k). rewrite Z.bit0_odd. pose proof (low_bit w) as H. rewrite Zodd_mod. destruct (negb (Z.land w 1 =? 0)); rewrite <- H; reflexivity.
Qed.
Lemma Sh_modulation : Shows p_modulation_type any L_modulation any.
Proof.
  unfold p_modulation_type. apply Shows_after; repeat sh_step; [intros; all_any| |exact I]. intros _. unfold L_modulation. prj. inc_norm.
  apply Inc_cons; [intros os; apply int_field; [assumption|]; unfold spread_from_u16; prj; rewrite !land_bit by lia; auto|].
  unfold u16 in *. unfold major_from_bytes. destruct (Z.eqb_spec a0 0); [subst|destruct (Z.leb_spec 1 a0), (Z.leb_spec a0 8); try lia]; cbn [andb]; inc_norm;
    try (apply Inc_cons; [inc_item|]; apply Inc_cons; [inc_item|]; apply Inc_refl).
Qed.
Lemma Sh_crypto : Shows p_crypto_key_id any (fun k => [Int 2 (2 * ck_key k + if ck_diphase k then 1 else 0)]) any.
Proof.
  unfold p_crypto_key_id, crypto_from_u16. apply Shows_after; repeat sh_step; [intros; all_any|intros; prj; inc_norm|exact I]. apply Inc_cons; [|apply Inc_refl]. intros os.
  apply int_eq. rewrite low_bit, Z.shiftr_div_pow2 by lia. change (2 ^ 1) with 2. Z.div_mod_to_equations; lia.
Qed.
Lemma Sh_bap : Shows p_beam_antenna_pattern any L_pattern any.
Proof. unfold p_beam_antenna_pattern. apply Shows_after; repeat sh_step; [intros; all_any|intros; unfold L_pattern; prj; inc|exact I]. Qed.
Global Hint Resolve Sh_modulation Sh_crypto Sh_bap : shows.
Lemma inc_fill0 l : Inc [Raw l] [Raw l; Fill 0].
Proof. apply (Inc_app [Raw l] [Raw l] [] [Fill 0]); [apply Inc_refl|]. intros os (ps & -> & Hps). inversion Hps; subst. apply shows_one. reflexivity. Qed.
Lemma Sh_vtp m : Shows (p_vtp m) (fun v => (6 + zlen (vtp_fields v)) mod 8 = 0) L_vtp any.
Proof.
  unfold p_vtp. apply Shows_after; repeat sh_step; [intros; all_any| |exact I]. prj. unfold L_vtp. prj. unfold u16 in *. intros Hm.
  match goal with |- context [Raw ?f] => assert (E : (- (6 + zlen f)) mod 8 = 0) by (Z.div_mod_to_equations; lia) end. rewrite E. inc_norm.
  apply Inc_cons; [inc_item|]. apply Inc_cons; [|apply inc_fill0]. intros os [Hl Hv]. split; [exact Hl|]. rewrite Hv. change (256 ^ Z.of_nat 2) with 65536.
  Z.div_mod_to_equations; lia.
Qed.
Global Hint Resolve Sh_vtp : shows.
Lemma Sh_modulation_parameters n : u8 n -> Shows (p_modulation_parameters n) any (fun o => [Raw (match o with Some l => l | None => [] end)])
  (fun o => zlen (match o with Some l => l | None => [] end) = n).
Proof.
  intros Hn. unfold u8 in Hn. unfold p_modulation_parameters. apply Shows_after. destruct (Z.ltb_spec 0 n).
  - repeat sh_step; [intros; all_any|intros; inc|lia].
  - apply After_ret; [auto| |change (zlen []) with 0; lia]. intros _ os (ps & -> & Hps). inversion Hps; subst. apply shows_one. reflexivity.
Qed.
Lemma Sh_antenna_pattern n : u16 n -> Shows (p_antenna_pattern n) any (fun o => match o with Some b => L_pattern b | None => [] end) (fun o => o = None <-> n = 0).
Proof.
  intros Hn. unfold u16 in Hn. unfold p_antenna_pattern. apply Shows_after. destruct (Z.ltb_spec 0 n).
  - repeat sh_step; [intros; all_any|intros; inc|]. split; [discriminate|lia].
  - apply After_ret; [auto|intros; apply Inc_refl|]. split; [lia|reflexivity].
Qed.
Global Hint Extern 1 (Shows (p_modulation_parameters _) _ _ _) => apply Sh_modulation_parameters; assumption : shows.
Global Hint Extern 1 (Shows (p_antenna_pattern _) _ _ _) => apply Sh_antenna_pattern; assumption : shows.
Lemma Sh_transmitter m v : Shows (p_transmitter_body m v) (fun x => reads_body (BTransmitter x)) (L_transmitter v) any.
Proof.
  unfold p_transmitter_body. apply Shows_after; repeat sh_step; [cbn [reads_body]; prj; intros; conds| |exact I].
  intros _. unfold L_transmitter. cbv zeta. prj. inc_norm.
  repeat first [apply Inc_refl | apply Inc_app; [apply Inc_refl|] | apply Inc_cons; [solve [inc_item]|]
    | apply Inc_cons; [intros os; apply int_field; [assumption|]; first [assumption | intros ->; cbn [Z.eqb Pos.eqb] in *; unfold u16 in *; lia] |] ].
Qed.

(** ** Is group of *)
Lemma Sh_ged_base d : Shows (p_ged_base d) any L_ged_base any.
Proof. unfold p_ged_base. apply Shows_after; repeat sh_step; [intros; all_any|intros; unfold L_ged_base, L_app; prj; inc|exact I]. Qed.
Global Hint Resolve Sh_ged_base : shows.
Lemma Sh_ged_ground : Shows p_ged_ground any L_ged_ground any.
Proof. unfold p_ged_ground. apply Shows_after; repeat sh_step; [intros; all_any|intros; unfold L_ged_ground; prj; inc|exact I]. Qed.
Lemma Sh_ged_air : Shows p_ged_air any L_ged_air any.
Proof. unfold p_ged_air. apply Shows_after; repeat sh_step; [intros; all_any|intros; unfold L_ged_air; prj; inc|exact I]. Qed.
Lemma Sh_quad : Shows p_quad any L_quad any.
Proof. unfold p_quad. apply Shows_after; repeat sh_step; [intros; all_any|intros; unfold L_quad; prj; inc|exact I]. Qed.
Global Hint Resolve Sh_ged_ground Sh_ged_air Sh_quad : shows.
Lemma Sh_ged c : Shows (p_ged c) any L_ged any.
Proof.
  unfold p_ged. apply Shows_after. repeat match goal with |- After _ _ (match ?c with _ => _ end) _ _ _ => destruct c end;
    repeat sh_step; try exact I; try (intros; all_any; fail); intros; cbn [L_ged]; inc.
Qed.
Global Hint Resolve Sh_ged : shows.
Lemma Sh_is_group_of : Shows p_is_group_of_body any L_is_group_of any.
Proof. unfold p_is_group_of_body. apply Shows_after; repeat sh_step; [intros; all_any|intros; unfold L_is_group_of; prj; inc|exact I]. Qed.

(** ** IFF *)
Lemma Sh_bits8 mask force : Shows (p_bits8 mask force) any (fun w => [Flags 1 mask force w]) any.
Proof.
  unfold p_bits8. apply Shows_after; repeat sh_step; [intros; all_any|intros; inc_norm|exact I]. apply Inc_cons; [|apply Inc_refl]. intros os. apply int_field; [assumption|reflexivity].
Qed.
Lemma Sh_bits16 mask force : Shows (p_bits16 mask force) any (fun w => [Flags 2 mask force w]) any.
Proof.
  unfold p_bits16. apply Shows_after; repeat sh_step; [intros; all_any|intros; inc_norm|exact I]. apply Inc_cons; [|apply Inc_refl]. intros os. apply int_field; [assumption|reflexivity].
Qed.
Lemma Sh_layer_header : Shows p_layer_header any L_layer_header any.
Proof. unfold p_layer_header. apply Shows_after; repeat sh_step; [intros; all_any|intros; unfold L_layer_header; prj; inc|exact I]. Qed.
Lemma Sh_iff_parameter : Shows p_iff_parameter any L_iff_parameter any.
Proof. unfold p_iff_parameter. apply Shows_after; repeat sh_step; [intros; all_any|intros; unfold L_iff_parameter; prj; inc|exact I]. Qed.
Global Hint Resolve Sh_bits8 Sh_bits16 Sh_layer_header Sh_iff_parameter : shows.
Definition whole_record (r : IffDataRecord) := (6 + zlen (idr_fields r)) mod 4 = 0.
Lemma Sh_iff_record : Shows p_iff_data_record whole_record L_iff_record any.
Proof.
  unfold p_iff_data_record. apply Shows_after; repeat sh_step; [intros; all_any| |exact I]. unfold whole_record, L_iff_record. prj. unfold u16 in *. intros Hm.
  match goal with |- context [Raw ?f] => assert (E : (- (6 + zlen f)) mod 4 = 0) by (Z.div_mod_to_equations; lia) end. rewrite E. inc_norm.
  apply Inc_cons; [inc_item|]. apply Inc_cons; [|apply inc_fill0]. intros os. apply int_eq.
  enough (6 <= a0) by lia. destruct (Z.leb_spec 6 a0); [assumption|]. exfalso. replace (zlen a1) with 0 in Hm by lia. discriminate.
Qed.
Global Hint Resolve Sh_iff_record : shows.
Lemma Sh_iff_records : Shows p_iff_data_specification (Forall whole_record) L_iff_records any.
Proof. unfold p_iff_data_specification. apply Shows_after; repeat sh_step; [intros; conds|intros; unfold L_iff_records; inc|exact I]. Qed.
Definition L_system s := [Int 2 (si_type s); Int 2 (si_name s); Int 1 (si_mode s); Int 1 (si_change s)].
Lemma Sh_system : Shows p_system_id any L_system any.
Proof. unfold p_system_id. apply Shows_after; repeat sh_step; [intros; all_any|intros; unfold L_system; prj; inc|exact I]. Qed.
Definition L_fund f := [Int 1 (fo_status f); Int 1 (fo_field1 f); Flags 1 m_layers 0 (fo_layers f); Int 1 (fo_field2 f);
   Int 2 (fo_p1 f); Int 2 (fo_p2 f); Int 2 (fo_p3 f); Int 2 (fo_p4 f); Int 2 (fo_p5 f); Int 2 (fo_p6 f)].
Lemma Sh_fund : Shows p_fund_op_data any L_fund any.
Proof. unfold p_fund_op_data. apply Shows_after; repeat sh_step; [intros; all_any|intros; unfold L_fund; prj; inc|exact I]. Qed.
Global Hint Resolve Sh_iff_records Sh_system Sh_fund : shows.
Lemma Sh_layer_2 : Shows p_iff_layer_2 any L_layer_2 any.
Proof. unfold p_iff_layer_2. apply Shows_after; repeat sh_step; [intros; all_any|intros; unfold L_layer_2; prj; inc|exact I]. Qed.
Definition known_system t := is_transponder t = true \/ is_interrogator t = true.
Lemma Sh_mode_5 t : Shows (p_mode5_basic_data t) (fun _ => known_system t) L_mode_5 any.
Proof.
  unfold p_mode5_basic_data, known_system, p_mode5_transponder, p_mode5_interrogator. apply Shows_after. destruct (is_transponder t); [|destruct (is_interrogator t)].
  - eapply After_bind with (L1 := fun x => L_mode_5 (M5Transponder x)) (C1 := any) (Q1 := any).
    + apply Shows_after; repeat sh_step; [intros; all_any|intros; cbn [L_mode_5]; prj; inc|exact I].
    + intros. apply After_ret; [intros; all_any|intros; apply Inc_refl|exact I].
  - eapply After_bind with (L1 := fun x => L_mode_5 (M5Interrogator x)) (C1 := any) (Q1 := any).
    + apply Shows_after; repeat sh_step; [intros; all_any|intros; cbn [L_mode_5]; prj; inc|exact I].
    + intros. apply After_ret; [intros; all_any|intros; apply Inc_refl|exact I].
  - apply After_ret; [auto|intros [E|E]; discriminate|exact I].
Qed.
Global Hint Resolve Sh_mode_5 Sh_layer_2 : shows.
Lemma Sh_layer_3 t : Shows (p_iff_layer_3 t) (fun l => known_system t /\ Forall whole_record (l3_records l)) L_layer_3 any.
Proof. unfold p_iff_layer_3. apply Shows_after; repeat sh_step; [prj; intros [? ?]; conds|intros; unfold L_layer_3; prj; inc|exact I]. Qed.
Lemma Sh_ascii8 : Shows p_ascii8 any (fun s => [Text 8 s]) any.
Proof.
  unfold p_ascii8. apply Shows_after; repeat sh_step; [intros; all_any|intros; inc_norm|exact I]. apply Inc_cons; [|apply Inc_refl]. intros os. apply raw_text. lia.
Qed.
Global Hint Resolve Sh_ascii8 : shows.
Definition interrogator_s b := match b with MSTransponder _ => False | MSInterrogator _ => True end.
Lemma Sh_mode_s t : Shows (p_modes_basic_data t) interrogator_s L_mode_s any.
Proof.
  unfold p_modes_basic_data, p_modes_interrogator. apply Shows_after. destruct (is_transponder t); [|destruct (is_interrogator t)].
  - eapply After_bind with (L1 := fun x => []) (C1 := fun _ => False) (Q1 := any).
    + unfold p_modes_transponder. apply Shows_after. repeat sh_step; [intros []|intros []|exact I].
    + intros. apply After_ret; [intros []|intros []|exact I].
  - eapply After_bind with (L1 := fun x => L_mode_s (MSInterrogator x)) (C1 := any) (Q1 := any).
    + apply Shows_after; repeat sh_step; [intros; all_any|intros; cbn [L_mode_s]; prj; inc|exact I].
    + intros. apply After_ret; [intros; all_any|intros; apply Inc_refl|exact I].
  - apply After_ret; [intros []|intros []|exact I].
Qed.
Global Hint Resolve Sh_layer_3 Sh_mode_s : shows.
Lemma Sh_layer_4 t : Shows (p_iff_layer_4 t) (fun l => interrogator_s (l4_basic l) /\ Forall whole_record (l4_records l)) L_layer_4 any.
Proof. unfold p_iff_layer_4. apply Shows_after; repeat sh_step; [prj; intros [? ?]; conds|intros; unfold L_layer_4; prj; inc|exact I]. Qed.
Lemma Sh_layer_5 : Shows p_iff_layer_5 (fun l => Forall whole_record (l5_records l)) L_layer_5 any.
Proof. unfold p_iff_layer_5. apply Shows_after; repeat sh_step; [prj; intros; conds|intros; unfold L_layer_5; prj; inc|exact I]. Qed.
Global Hint Resolve Sh_layer_4 Sh_layer_5 : shows.
Lemma Shows_option {A} b (p : bparser A) C L Q : Shows p C L Q -> Shows (p_option b p) (fun o => match o with Some a => C a | None => True end) (L_optional L) any.
Proof.
  intros H. unfold p_option. apply Shows_after. destruct b.
  - eapply After_bind; [exact H|]. intros a _. apply After_ret; [auto|intros; apply Inc_refl|exact I].
  - apply After_ret; [auto|intros; apply Inc_refl|exact I].
Qed.
Lemma Sh_iff : Shows p_iff_body (fun x => reads_body (BIff x)) L_iff any.
Proof.
  unfold p_iff_body. apply Shows_after.
  repeat first [sh_step | eapply After_bind; [eapply Shows_option; sh_atom|intros]].
  - cbn [reads_body]. cbv zeta. prj. intros (HL3 & HL4 & HL5). unfold any. repeat match goal with |- _ /\ _ => split end; try exact I.
    + destruct a6; exact I.
    + destruct a7; [exact HL3|exact I].
    + destruct a8 as [[lh ls lb lr]|]; [|exact I]. cbv iota in *. destruct lb; first [contradiction|split; [exact I|exact HL4]].
    + destruct a9; [exact HL5|exact I].
  - intros _. unfold L_iff. cbv zeta. unfold L_system, L_fund. prj. inc.
  - exact I.
Qed.

(** ** Header, body, PDU, packet *)
Lemma Sh_status ty : Shows (p_status ty) any (fun sp => match fst sp with Some s => [Field 1 (write_status ty s) (fun b => parse_status ty b = s); Pad 1] | None => [Pad 2] end) any.
Proof.
  unfold p_status. apply Shows_after; repeat sh_step; [intros; all_any|intros; cbn [fst]; inc_norm|exact I].
  apply Inc_cons; [intros os; apply int_field; [assumption|reflexivity]|]. apply Inc_cons; [inc_item|apply Inc_refl].
Qed.
Global Hint Resolve Sh_status : shows.
Lemma Sh_header : Shows p_header any L_header any.
Proof.
  unfold p_header. apply Shows_after. do 6 sh_step.
  eapply After_bind with (C1 := any) (Q1 := any) (L1 := fun sp => match fst sp with Some s => [Field 1 (write_status a1 s) (fun b => parse_status a1 b = s); Pad 1] | None => [Pad 2] end).
  - apply Shows_after. destruct (rng 1 5 a); [|destruct (a =? 6); [|destruct (a =? 7)]];
      try (eapply After_last; [apply Sh_status|intros; split; exact I|intros; apply Inc_refl|intros; exact I]);
      (repeat sh_step; [intros; all_any|intros; cbn [fst]; inc|exact I]).
  - intros sp _. sh_step; [intros; all_any|intros; unfold L_header; prj; inc|exact I].
Qed.
Lemma Shows_pmap {A B} (f : A -> B) (p : bparser A) C L Q (C' : B -> Prop) (L' : B -> list item) :
  Shows p C L Q -> (forall a, C' (f a) -> C a) -> (forall a, L' (f a) = L a) -> Shows (pmap f p) C' L' any.
Proof.
  intros H HC HL i r x B0 E. unfold pmap, pbind, pret in E. destruct (p i) as [r1 a| |] eqn:E1; try discriminate. injection E as <- <-.
  destruct (H _ _ _ B0 E1) as (Br & (os & -> & S) & _). split; [exact Br|]. split; [|exact I]. exists os. split; [reflexivity|]. intros Hc. rewrite HL. auto.
Qed.
Lemma Sh_relationship : Shows p_relationship any (fun r => [Int 2 (re_nature r); Int 2 (re_position r)]) any.
Proof. unfold p_relationship. apply Shows_after; repeat sh_step; [intros; all_any|intros; prj; inc|exact I]. Qed.
Lemma Sh_named : Shows p_named_location_id any (fun r => [Int 2 (nl_name r); Int 2 (nl_number r)]) any.
Proof. unfold p_named_location_id. apply Shows_after; repeat sh_step; [intros; all_any|intros; prj; inc|exact I]. Qed.
Global Hint Resolve Sh_relationship Sh_named : shows.
Lemma Sh_is_part_of : Shows p_is_part_of_body (fun _ => False) L_is_part_of any.
Proof. unfold p_is_part_of_body. apply Shows_after; repeat sh_step; [intros []|intros []|exact I]. Qed.
Lemma Sh_record_r m : Shows (p_record_r_body m) (fun _ => False) L_record_r any.
Proof. unfold p_record_r_body. apply Shows_after; repeat sh_step; [intros []|intros []|exact I]. Qed.
Global Hint Resolve Sh_is_part_of Sh_record_r Sh_entity_state Sh_aggregate_state Sh_emission Sh_underwater_acoustic Sh_signal Sh_transmitter Sh_is_group_of Sh_iff : shows.
Global Hint Resolve Sh_fire Sh_detonation Sh_entity_state_update Sh_other Sh_attribute Sh_comment Sh_comment_r Sh_data_query Sh_data_query_r Sh_record_query_r Sh_set_record_r Sh_transfer_ownership Sh_action_response_r : shows.
Lemma Sh_body m h : Shows (p_body m h) reads_body (L_body (h_version h)) any.
Proof.
  unfold p_body. cbv zeta. repeat match goal with |- context [if ?c then _ else _] => destruct c end;
    (eapply Shows_pmap; [solve [eauto 2 with shows]| |]); cbn [reads_body L_body]; auto; intros; exact I.
Qed.
Lemma Sh_pdu m : Shows (p_pdu m) (fun p => reads_body (pdu_body p)) L_pdu any.
Proof.
  unfold p_pdu. apply Shows_after. eapply After_bind; [apply Sh_header|]. intros h _. eapply After_bind; [apply Sh_body|]. intros b _.
  apply After_ret; [cbn [pdu_body]; intros; conds|intros; apply Inc_refl|exact I].
Qed.
Lemma shows_split m i l rest : Split (p_pdu m) i l rest -> bytes i ->
  exists parts, i = concat parts ++ rest /\ Forall2 (fun p os => reads_body (pdu_body p) -> shows (L_pdu p) os) l parts.
Proof.
  induction 1 as [i k E|i r a l rest E Hs IH]; intros B.
  - exists []. split; [reflexivity|constructor].
  - destruct (Sh_pdu m i r a B E) as (Br & (os & -> & S) & _). destruct (IH Br) as (parts & -> & H2).
    exists (os :: parts). split; [cbn [concat]; now rewrite app_assoc|]. constructor; assumption.
Qed.

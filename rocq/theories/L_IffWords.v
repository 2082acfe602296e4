(** C59: the IFF status records. *)
From Verif Require Import Base DisCommon IffWords SpecIffWords IffWordsLemmas DisIff.

Lemma on_wire {A} n L fields (wf : A -> Prop) read write : 0 <= n -> lay n 0 L ->
  (forall v, wf (read v) /\ fields (read v) = map (bits n v) L) ->
  (forall x, wf x -> room L (fields x) -> write x = enc n L (fields x)) -> (forall x y, fields x = fields y -> x = y) ->
  record_on_the_wire n L fields wf read write.
Proof. intros N LY R W I. assert (forall x, wf x -> room L (fields x) -> says n L (write x) (fields x)) as S by (intros x Hw Hr; rewrite (W x Hw Hr); now apply says_enc). split; [intros v _; apply R|split; [exact S|split]].
  - intros x Hw. split.
    + intros E. rewrite <- E. rewrite (proj2 (R _)). now apply (room_bits n _ L 0).
    + intros Hr. apply I. destruct (S x Hw Hr) as (B & M & _). now rewrite (proj2 (R _)).
  - intros v _. unfold same_fields. destruct (R v) as (Hw & F). rewrite <- F. apply S; [exact Hw|]. rewrite F. now apply (room_bits n _ L 0).
Qed.
Lemma with_one_room L : forall k xs p, room L xs -> nth_error L k = Some p -> fst p <= snd p -> room L (with_one k xs).
Proof. induction L as [|q L IH]; intros k xs p R E P; destruct k as [|k]; cbn in E; try discriminate; inversion R as [|? x ? xs' B R']; subst; unfold with_one; cbn [firstn skipn app].
  - injection E as <-. constructor; [|exact R']. assert (2 ^ 1 <= 2 ^ (snd q - fst q + 1)) by (apply Z.pow_le_mono_r; lia). change (2 ^ 1) with 2 in *. lia.
  - constructor; [exact B|]. apply (IH k xs' p); easy. Qed.
Lemma with_one_nth k : forall xs, (k < length xs)%nat -> nth k (with_one k xs) 0 = 1.
Proof. induction k as [|k IH]; intros [|x xs] L; cbn in L; try lia; unfold with_one; cbn [firstn skipn app nth]; [easy|]. apply IH. lia. Qed.
Lemma with_one_id k : forall xs, (k < length xs)%nat -> nth k xs 0 = 1 -> with_one k xs = xs.
Proof. induction k as [|k IH]; intros [|x xs] L E; cbn in L, E; try lia; unfold with_one; cbn [firstn skipn app]; [now rewrite E|]. f_equal. apply IH; [lia|exact E]. Qed.
Lemma on_wire_stuck {A} n L k p fields (wf : A -> Prop) read write : 0 <= n -> lay n 0 L -> nth_error L k = Some p -> fst p <= snd p ->
  (forall v, wf (read v) /\ fields (read v) = with_one k (map (bits n v) L)) ->
  (forall x, wf x -> room L (fields x) -> write x = enc n L (fields x)) -> (forall x y, fields x = fields y -> x = y) ->
  record_with_stuck_bit n L k fields wf read write.
Proof. intros N LY K P R W I. assert (forall x, wf x -> room L (fields x) -> says n L (write x) (fields x)) as S by (intros x Hw Hr; rewrite (W x Hw Hr); now apply says_enc).
  assert (forall v, room L (fields (read v))) as RR. { intros v. rewrite (proj2 (R v)). eapply with_one_room; [now apply (room_bits n _ L 0)|eassumption|easy]. }
  assert (k < length L)%nat as KL by (apply nth_error_Some; congruence). split; [intros v _; apply R|split; [exact S|split]].
  - intros x Hw. split.
    + intros E. split; [rewrite <- E; apply RR|]. rewrite <- E. rewrite (proj2 (R _)). apply with_one_nth. now rewrite map_length.
    + intros (Hr & One). apply I. destruct (S x Hw Hr) as (B & M & _). rewrite (proj2 (R _)), M. apply with_one_id; [|exact One]. rewrite <- M, map_length. exact KL.
  - intros v _. destruct (R v) as (Hw & F). rewrite <- F. apply S; [exact Hw|apply RR].
Qed.
From Coq Require Import Btauto.
Lemma shl_lt x s w : 0 <= x < 2 ^ w -> 0 <= s -> 0 <= w -> s + w <= 8 -> 0 <= Z.shiftl x s < 2 ^ 8.
Proof. intros B S W L. rewrite <- (shl8_ok x s s w) by easy. unfold shl8. apply Z.mod_pos_bound. lia. Qed.
Lemma lt_8 x w : 0 <= x < 2 ^ w -> 0 <= w <= 8 -> 0 <= x < 2 ^ 8.
Proof. intros B W. rewrite <- (Z.shiftl_0_r x). apply (shl_lt _ _ w); lia. Qed.
Ltac upto := first [eapply shl_lt; [eassumption|lia|lia|lia] | eapply lt_8; [eassumption|lia]].
Ltac lay_ok := match goal with |- lay ?n ?lo ?L => let L' := eval cbv in L in change (lay n lo L') end; cbn [lay fst snd]; repeat split; lia.
Ltac u8_bits := unfold u8, u16; match goal with |- 0 <= bits ?n ?v (?a, ?b) < _ => pose proof (bits_range n v (a, b) ltac:(cbn; lia)) as B; cbn [fst snd] in B; match type of B with _ <= _ < 2 ^ ?e => let e' := eval vm_compute in (2 ^ e) in change (2 ^ e) with e' in B end; lia end.
Lemma inj_onoff a b : code_onoff a = code_onoff b -> a = b. Proof. destruct a, b; cbn; congruence. Qed.
Lemma inj_damage a b : code_damage a = code_damage b -> a = b. Proof. destruct a, b; cbn; congruence. Qed.
Lemma inj_malfunction a b : code_malfunction a = code_malfunction b -> a = b. Proof. destruct a, b; cbn; congruence. Qed.
Lemma inj_enabled a b : code_enabled a = code_enabled b -> a = b. Proof. destruct a, b; cbn; congruence. Qed.
Lemma inj_latlon a b : code_latlon a = code_latlon b -> a = b. Proof. destruct a, b; cbn; congruence. Qed.
Lemma inj_presence a b : code_presence a = code_presence b -> a = b. Proof. destruct a, b; cbn; congruence. Qed.
Lemma inj_squitter a b : code_squitter a = code_squitter b -> a = b. Proof. destruct a, b; cbn; congruence. Qed.
Lemma inj_capable a b : code_capable a = code_capable b -> a = b. Proof. destruct a, b; cbn; congruence. Qed.
Lemma inj_operational a b : code_operational a = code_operational b -> a = b. Proof. destruct a, b; cbn; congruence. Qed.
Lemma inj_layer a b : code_layer a = code_layer b -> a = b. Proof. destruct a, b; cbn; congruence. Qed.
Lemma inj_dap a b : code_dap a = code_dap b -> a = b. Proof. destruct a, b; cbn; congruence. Qed.
Lemma inj_yes a b : yes a = yes b -> a = b. Proof. destruct a, b; cbn; congruence. Qed.
Ltac inj1 := match goal with H : ?c ?a = ?c ?b |- _ => first [apply inj_onoff in H | apply inj_damage in H | apply inj_malfunction in H | apply inj_enabled in H | apply inj_latlon in H | apply inj_presence in H | apply inj_squitter in H
  | apply inj_capable in H | apply inj_operational in H | apply inj_layer in H | apply inj_dap in H | apply inj_yes in H]; subst b end.
Lemma cons_inj {A} (x y : A) l l' : x :: l = y :: l' -> x = y /\ l = l'. Proof. intros E; injection E; auto. Qed.
Ltac fields_inj := let E := fresh "E" in intros x y E; destruct x, y; repeat (apply cons_inj in E; let E1 := fresh "F" in destruct E as [E1 E]; cbn in E1); repeat inj1; subst; reflexivity.
Ltac reading := repeat (apply cons_cong; [rd_one|]); reflexivity.

(** ** ChangeOptions *)
Lemma fields_change_options_of v : fields_change_options (change_options_of v) = map (bits 8 v) layout_change_options.
Proof. unfold fields_change_options, layout_change_options, change_options_of; cbn [map co_change co_specific_1 co_specific_2 co_heartbeat co_transponder co_simulation co_interactive co_test]. reading. Qed.
Lemma wf_change_options_of v : wf_ChangeOptions (change_options_of v).
Proof. exact I. Qed.
Lemma change_options_written x : room layout_change_options (fields_change_options x) -> change_options_num x = enc 8 layout_change_options (fields_change_options x).
Proof. intros _. destruct x as [a b c d e f g h]. destruct a, b, c, d, e, f, g, h; reflexivity. Qed.
(*@C59 The change and options record is read from every word, and written, as the layout says; it comes back from the wire if and only if its numbers have room. *)
Lemma iff_change_options_on_the_wire_pf : record_on_the_wire 8 layout_change_options fields_change_options wf_ChangeOptions change_options_of change_options_num.
Proof. apply on_wire; [lia|lay_ok|intros v; split; [apply wf_change_options_of|apply fields_change_options_of]|intros x _; apply change_options_written|fields_inj]. Qed.
(** ** SystemStatus *)
Lemma fields_system_status_of v : fields_system_status (system_status_of v) = map (bits 8 v) layout_system_status.
Proof. unfold fields_system_status, layout_system_status, system_status_of; cbn [map sy_on_off sy_parameter_1 sy_parameter_2 sy_parameter_3 sy_parameter_4 sy_parameter_5 sy_parameter_6 sy_operational]. reading. Qed.
Lemma wf_system_status_of v : wf_SystemStatus (system_status_of v).
Proof. exact I. Qed.
Lemma system_status_written x : room layout_system_status (fields_system_status x) -> system_status_num x = enc 8 layout_system_status (fields_system_status x).
Proof. intros H. unfold layout_system_status, fields_system_status in *. room_bounds H. unfold system_status_num. cbn [enc fst snd]. rewrite Z.lor_0_r, <- ?Z.lor_assoc. repeat (apply lor_cong; [wr_leaf|]). wr_leaf. Qed.
(*@C59 The system status record is read from every word, and written, as the layout says; it comes back from the wire if and only if its numbers have room. *)
Lemma iff_system_status_on_the_wire_pf : record_on_the_wire 8 layout_system_status fields_system_status wf_SystemStatus system_status_of system_status_num.
Proof. apply on_wire; [lia|lay_ok|intros v; split; [apply wf_system_status_of|apply fields_system_status_of]|intros x _; apply system_status_written|fields_inj]. Qed.
(** ** InformationLayers *)
Lemma fields_information_layers_of v : fields_information_layers (information_layers_of v) = map (bits 8 v) layout_information_layers.
Proof. unfold fields_information_layers, layout_information_layers, information_layers_of; cbn [map il_layer_1 il_layer_2 il_layer_3 il_layer_4 il_layer_5 il_layer_6 il_layer_7]. reading. Qed.
Lemma wf_information_layers_of v : wf_InformationLayers (information_layers_of v).
Proof. exact I. Qed.
Lemma information_layers_written x : room layout_information_layers (fields_information_layers x) -> information_layers_num x = enc 8 layout_information_layers (fields_information_layers x).
Proof. intros H. unfold layout_information_layers, fields_information_layers in *. room_bounds H. unfold information_layers_num. cbn [enc fst snd]. rewrite Z.lor_0_r, <- ?Z.lor_assoc. repeat (apply lor_cong; [wr_leaf|]). wr_leaf. Qed.
(*@C59 The information layers record is read from every word, and written, as the layout says; it comes back from the wire if and only if its numbers have room. *)
Lemma iff_information_layers_on_the_wire_pf : record_on_the_wire 8 layout_information_layers fields_information_layers wf_InformationLayers information_layers_of information_layers_num.
Proof. apply on_wire; [lia|lay_ok|intros v; split; [apply wf_information_layers_of|apply fields_information_layers_of]|intros x _; apply information_layers_written|fields_inj]. Qed.
(** ** Mode5InterrogatorStatus *)
Lemma fields_m5i_word_of v : fields_m5i_word (m5i_word_of v) = map (bits 8 v) layout_m5i_word.
Proof. unfold fields_m5i_word, layout_m5i_word, m5i_word_of; cbn [map is_mission is_formats_status is_on_off is_damage is_malfunction]. reading. Qed.
Lemma wf_m5i_word_of v : wf_Mode5InterrogatorStatus (m5i_word_of v).
Proof. pose proof (fields_m5i_word_of v) as E. unfold fields_m5i_word, with_one, layout_m5i_word in E. cbn [map firstn skipn app] in E. repeat (apply cons_inj in E; let E1 := fresh "F" in destruct E as [E1 E]). unfold wf_Mode5InterrogatorStatus. repeat (match goal with |- _ /\ _ => apply conj end); match goal with F : ?a = bits _ _ _ |- _ ?a => rewrite F; u8_bits end. Qed.
Lemma m5i_word_written x : room layout_m5i_word (fields_m5i_word x) -> m5i_word_num x = enc 8 layout_m5i_word (fields_m5i_word x).
Proof. intros H. unfold layout_m5i_word, fields_m5i_word in *. room_bounds H. unfold m5i_word_num. cbn [enc fst snd]. rewrite Z.lor_0_r, <- ?Z.lor_assoc. repeat (apply lor_cong; [wr_leaf|]). wr_leaf. Qed.
(*@C59 The Mode 5 interrogator status record is read from every word, and written, as the layout says; it comes back from the wire if and only if its numbers have room. *)
Lemma iff_m5i_word_on_the_wire_pf : record_on_the_wire 8 layout_m5i_word fields_m5i_word wf_Mode5InterrogatorStatus m5i_word_of m5i_word_num.
Proof. apply on_wire; [lia|lay_ok|intros v; split; [apply wf_m5i_word_of|apply fields_m5i_word_of]|intros x _; apply m5i_word_written|fields_inj]. Qed.
(** ** MessageFormats *)
Lemma fields_message_formats_of v : fields_message_formats (message_formats_of v) = map (bits 32 v) layout_message_formats.
Proof. unfold fields_message_formats, layout_message_formats, message_formats_of; cbn [map mf_0 mf_1 mf_2 mf_3 mf_4 mf_5 mf_6 mf_7 mf_8 mf_9 mf_10 mf_11 mf_12 mf_13 mf_14 mf_15 mf_16 mf_17 mf_18 mf_19 mf_20 mf_21 mf_22 mf_23 mf_24 mf_25 mf_26 mf_27 mf_28 mf_29 mf_30 mf_31]. reading. Qed.
Lemma wf_message_formats_of v : wf_MessageFormats (message_formats_of v).
Proof. exact I. Qed.
Lemma message_formats_written x : room layout_message_formats (fields_message_formats x) -> message_formats_num x = enc 32 layout_message_formats (fields_message_formats x).
Proof. intros H. unfold layout_message_formats, fields_message_formats in *. room_bounds H. unfold message_formats_num. cbn [enc fst snd]. rewrite Z.lor_0_r, <- ?Z.lor_assoc. repeat (apply lor_cong; [wr_leaf|]). wr_leaf. Qed.
(*@C59 The Mode 5 message formats record is read from every word, and written, as the layout says; it comes back from the wire if and only if its numbers have room. *)
Lemma iff_message_formats_on_the_wire_pf : record_on_the_wire 32 layout_message_formats fields_message_formats wf_MessageFormats message_formats_of message_formats_num.
Proof. apply on_wire; [lia|lay_ok|intros v; split; [apply wf_message_formats_of|apply fields_message_formats_of]|intros x _; apply message_formats_written|fields_inj]. Qed.
(** ** EnhancedMode1Code *)
Lemma fields_mode1_code_of v : fields_mode1_code (mode1_code_of v) = map (bits 16 v) layout_mode1_code.
Proof. unfold fields_mode1_code, layout_mode1_code, mode1_code_of; cbn [map em_element_1 em_element_2 em_element_3 em_element_4 em_on_off em_damage em_malfunction]. reading. Qed.
Lemma wf_mode1_code_of v : wf_EnhancedMode1Code (mode1_code_of v).
Proof. pose proof (fields_mode1_code_of v) as E. unfold fields_mode1_code, with_one, layout_mode1_code in E. cbn [map firstn skipn app] in E. repeat (apply cons_inj in E; let E1 := fresh "F" in destruct E as [E1 E]). unfold wf_EnhancedMode1Code. repeat (match goal with |- _ /\ _ => apply conj end); match goal with F : ?a = bits _ _ _ |- _ ?a => rewrite F; u8_bits end. Qed.
Lemma mode1_code_written x : room layout_mode1_code (fields_mode1_code x) -> mode1_code_num x = enc 16 layout_mode1_code (fields_mode1_code x).
Proof. intros H. unfold layout_mode1_code, fields_mode1_code in *. room_bounds H. unfold mode1_code_num. cbn [enc fst snd]. rewrite Z.lor_0_r, <- ?Z.lor_assoc. repeat (apply lor_cong; [wr_leaf|]). wr_leaf. Qed.
(*@C59 The enhanced Mode 1 code record is read from every word, and written, as the layout says; it comes back from the wire if and only if its numbers have room. *)
Lemma iff_mode1_code_on_the_wire_pf : record_on_the_wire 16 layout_mode1_code fields_mode1_code wf_EnhancedMode1Code mode1_code_of mode1_code_num.
Proof. apply on_wire; [lia|lay_ok|intros v; split; [apply wf_mode1_code_of|apply fields_mode1_code_of]|intros x _; apply mode1_code_written|fields_inj]. Qed.
(** ** SupplementalData *)
Lemma fields_supplemental_data_of v : fields_supplemental_data (supplemental_data_of v) = map (bits 8 v) layout_supplemental_data.
Proof. unfold fields_supplemental_data, layout_supplemental_data, supplemental_data_of; cbn [map sd_squitter sd_level_2 sd_mission]. reading. Qed.
Lemma wf_supplemental_data_of v : wf_SupplementalData (supplemental_data_of v).
Proof. pose proof (fields_supplemental_data_of v) as E. unfold fields_supplemental_data, with_one, layout_supplemental_data in E. cbn [map firstn skipn app] in E. repeat (apply cons_inj in E; let E1 := fresh "F" in destruct E as [E1 E]). unfold wf_SupplementalData. repeat (match goal with |- _ /\ _ => apply conj end); match goal with F : ?a = bits _ _ _ |- _ ?a => rewrite F; u8_bits end. Qed.
Lemma supplemental_data_written x : room layout_supplemental_data (fields_supplemental_data x) -> supplemental_data_num x = enc 8 layout_supplemental_data (fields_supplemental_data x).
Proof. intros H. unfold layout_supplemental_data, fields_supplemental_data in *. room_bounds H. unfold supplemental_data_num. cbn [enc fst snd]. rewrite Z.lor_0_r, <- ?Z.lor_assoc. repeat (apply lor_cong; [wr_leaf|]). wr_leaf. Qed.
(*@C59 The Mode 5 transponder supplemental data record is read from every word, and written, as the layout says; it comes back from the wire if and only if its numbers have room. *)
Lemma iff_supplemental_data_on_the_wire_pf : record_on_the_wire 8 layout_supplemental_data fields_supplemental_data wf_SupplementalData supplemental_data_of supplemental_data_num.
Proof. apply on_wire; [lia|lay_ok|intros v; split; [apply wf_supplemental_data_of|apply fields_supplemental_data_of]|intros x _; apply supplemental_data_written|fields_inj]. Qed.
(** ** Mode5TransponderStatus *)
Lemma fields_m5t_word_of v : fields_m5t_word (m5t_word_of v) = map (bits 16 v) layout_m5t_word.
Proof. unfold fields_m5t_word, layout_m5t_word, m5t_word_of; cbn [map ts_reply ts_line_test ts_antenna ts_crypto ts_lat_lon_alt ts_location_errors ts_platform ts_level ts_on_off ts_damage ts_malfunction]. reading. Qed.
Lemma wf_m5t_word_of v : wf_Mode5TransponderStatus (m5t_word_of v).
Proof. pose proof (fields_m5t_word_of v) as E. unfold fields_m5t_word, with_one, layout_m5t_word in E. cbn [map firstn skipn app] in E. repeat (apply cons_inj in E; let E1 := fresh "F" in destruct E as [E1 E]). unfold wf_Mode5TransponderStatus. repeat (match goal with |- _ /\ _ => apply conj end); match goal with F : ?a = bits _ _ _ |- _ ?a => rewrite F; u8_bits end. Qed.
Lemma m5t_word_written x : room layout_m5t_word (fields_m5t_word x) -> m5t_word_num x = enc 16 layout_m5t_word (fields_m5t_word x).
Proof. intros H. unfold layout_m5t_word, fields_m5t_word in *. room_bounds H. unfold m5t_word_num. cbn [enc fst snd]. rewrite Z.lor_0_r.
  rewrite (shl8_ok _ 4 4 4), (shl8_ok _ 3 3 1), (shl8_ok _ 1 1 2) by (first [eassumption | reflexivity | lia]).
  rewrite (shl16_ok _ 8 8 8) by (first [reflexivity | lia | repeat (apply lor_lt; [lia| |]); upto]).
  rewrite !Z.shiftl_lor, !Z.shiftl_shiftl by lia. rewrite <- !Z.lor_assoc. repeat (apply lor_cong; [first [reflexivity | wr_leaf]|]). first [reflexivity | wr_leaf]. Qed.
(*@C59 The Mode 5 transponder status record is read from every word, and written, as the layout says; it comes back from the wire if and only if its numbers have room. *)
Lemma iff_m5t_word_on_the_wire_pf : record_on_the_wire 16 layout_m5t_word fields_m5t_word wf_Mode5TransponderStatus m5t_word_of m5t_word_num.
Proof. apply on_wire; [lia|lay_ok|intros v; split; [apply wf_m5t_word_of|apply fields_m5t_word_of]|intros x _; apply m5t_word_written|fields_inj]. Qed.
(** ** ModeSAltitude *)
Lemma fields_altitude_word_of v : fields_altitude_word (altitude_word_of v) = map (bits 16 v) layout_altitude_word.
Proof. unfold fields_altitude_word, layout_altitude_word, altitude_word_of; cbn [map al_altitude al_resolution]. reading. Qed.
Lemma wf_altitude_word_of v : wf_ModeSAltitude (altitude_word_of v).
Proof. pose proof (fields_altitude_word_of v) as E. unfold fields_altitude_word, with_one, layout_altitude_word in E. cbn [map firstn skipn app] in E. repeat (apply cons_inj in E; let E1 := fresh "F" in destruct E as [E1 E]). unfold wf_ModeSAltitude. repeat (match goal with |- _ /\ _ => apply conj end); match goal with F : ?a = bits _ _ _ |- _ ?a => rewrite F; u8_bits end. Qed.
Lemma altitude_word_written x : room layout_altitude_word (fields_altitude_word x) -> altitude_word_num x = enc 16 layout_altitude_word (fields_altitude_word x).
Proof. intros H. unfold layout_altitude_word, fields_altitude_word in *. room_bounds H. unfold altitude_word_num. cbn [enc fst snd]. rewrite Z.lor_0_r, <- ?Z.lor_assoc. repeat (apply lor_cong; [wr_leaf|]). wr_leaf. Qed.
(*@C59 The Mode S altitude record is read from every word, and written, as the layout says; it comes back from the wire if and only if its numbers have room. *)
Lemma iff_altitude_word_on_the_wire_pf : record_on_the_wire 16 layout_altitude_word fields_altitude_word wf_ModeSAltitude altitude_word_of altitude_word_num.
Proof. apply on_wire; [lia|lay_ok|intros v; split; [apply wf_altitude_word_of|apply fields_altitude_word_of]|intros x _; apply altitude_word_written|fields_inj]. Qed.
(** ** ModeSInterrogatorStatus *)
Lemma fields_msi_word_of v : fields_msi_word (msi_word_of v) = with_one 3 (map (bits 8 v) layout_msi_word).
Proof. unfold with_one. cbn [firstn skipn app map layout_msi_word]. unfold fields_msi_word, layout_msi_word, msi_word_of; cbn [map ss_on_off ss_transmit ss_damage ss_malfunction]. 
  repeat (apply cons_cong; [first [reflexivity | rd_one]|]); reflexivity. Qed.
Lemma wf_msi_word_of v : wf_ModeSInterrogatorStatus (msi_word_of v).
Proof. pose proof (fields_msi_word_of v) as E. unfold fields_msi_word, with_one, layout_msi_word in E. cbn [map firstn skipn app] in E. repeat (apply cons_inj in E; let E1 := fresh "F" in destruct E as [E1 E]). unfold wf_ModeSInterrogatorStatus. repeat (match goal with |- _ /\ _ => apply conj end); match goal with F : ?a = bits _ _ _ |- _ ?a => rewrite F; u8_bits end. Qed.
Lemma msi_word_written x : room layout_msi_word (fields_msi_word x) -> msi_word_num x = enc 8 layout_msi_word (fields_msi_word x).
Proof. intros H. unfold layout_msi_word, fields_msi_word in *. room_bounds H. unfold msi_word_num. cbn [enc fst snd]. rewrite Z.lor_0_r, <- ?Z.lor_assoc. repeat (apply lor_cong; [wr_leaf|]). wr_leaf. Qed.
(*@C59 The Mode S interrogator status record: every other subfield is read and written as the layout says, but malfunction is always read as malfunctioning, because its reader tests a constant. *)
Lemma iff_msi_word_stuck_bit_pf : record_with_stuck_bit 8 layout_msi_word 3 fields_msi_word wf_ModeSInterrogatorStatus msi_word_of msi_word_num.
Proof. apply (on_wire_stuck _ _ _ (5, 5)); [lia|lay_ok|reflexivity|cbn; lia|intros v; split; [apply wf_msi_word_of|apply fields_msi_word_of]|intros x _; apply msi_word_written|fields_inj]. Qed.
(** ** ModeSLevels *)
Lemma fields_levels_word_of v : fields_levels_word (levels_word_of v) = with_one 4 (map (bits 8 v) layout_levels_word).
Proof. unfold with_one. cbn [firstn skipn app map layout_levels_word]. unfold fields_levels_word, layout_levels_word, levels_word_of; cbn [map lv_1 lv_2_els lv_2_ehs lv_3 lv_4]. 
  repeat (apply cons_cong; [first [reflexivity | rd_one]|]); reflexivity. Qed.
Lemma wf_levels_word_of v : wf_ModeSLevels (levels_word_of v).
Proof. exact I. Qed.
Lemma levels_word_written x : room layout_levels_word (fields_levels_word x) -> levels_word_num x = enc 8 layout_levels_word (fields_levels_word x).
Proof. intros H. unfold layout_levels_word, fields_levels_word in *. room_bounds H. unfold levels_word_num. cbn [enc fst snd]. rewrite Z.lor_0_r, <- ?Z.lor_assoc. repeat (apply lor_cong; [wr_leaf|]). wr_leaf. Qed.
(*@C59 The Mode S levels present record: every other subfield is read and written as the layout says, but level 4 is always read as present, because its reader tests a constant. *)
Lemma iff_levels_word_stuck_bit_pf : record_with_stuck_bit 8 layout_levels_word 4 fields_levels_word wf_ModeSLevels levels_word_of levels_word_num.
Proof. apply (on_wire_stuck _ _ _ (5, 5)); [lia|lay_ok|reflexivity|cbn; lia|intros v; split; [apply wf_levels_word_of|apply fields_levels_word_of]|intros x _; apply levels_word_written|fields_inj]. Qed.
(** ** DapSource *)
Lemma fields_dap_word_of v : fields_dap_word (dap_word_of v) = with_one 4 (map (bits 8 v) layout_dap_word).
Proof. unfold with_one. cbn [firstn skipn app map layout_dap_word]. unfold fields_dap_word, layout_dap_word, dap_word_of; cbn [map da_indicated da_mach da_ground da_heading da_track_rate da_track_angle da_true_airspeed da_vertical]. 
  repeat (apply cons_cong; [first [reflexivity | rd_one]|]); reflexivity. Qed.
Lemma wf_dap_word_of v : wf_DapSource (dap_word_of v).
Proof. exact I. Qed.
Lemma dap_word_written x : room layout_dap_word (fields_dap_word x) -> dap_word_num x = enc 8 layout_dap_word (fields_dap_word x).
Proof. intros H. unfold layout_dap_word, fields_dap_word in *. room_bounds H. unfold dap_word_num. cbn [enc fst snd]. rewrite Z.lor_0_r, <- ?Z.lor_assoc. repeat (apply lor_cong; [wr_leaf|]). wr_leaf. Qed.
(*@C59 The downlink of aircraft parameters source record: every other subfield is read and written as the layout says, but the source of the track angle rate is always read as a data record, because its reader tests a constant. *)
Lemma iff_dap_word_stuck_bit_pf : record_with_stuck_bit 8 layout_dap_word 4 fields_dap_word wf_DapSource dap_word_of dap_word_num.
Proof. apply (on_wire_stuck _ _ _ (4, 4)); [lia|lay_ok|reflexivity|cbn; lia|intros v; split; [apply wf_dap_word_of|apply fields_dap_word_of]|intros x _; apply dap_word_written|fields_inj]. Qed.
(** ** ModeSTransponderStatus *)
Lemma fields_mst_word_of v : fields_mst_word (mst_word_of v) = map (bits 16 v) layout_mst_word.
Proof. unfold fields_mst_word, layout_mst_word, mst_word_of; cbn [map st_squitter st_type st_source st_airborne_position st_airborne_velocity st_surface_position st_identification st_event_driven st_on_off st_damage st_malfunction]. reading. Qed.
Lemma wf_mst_word_of v : wf_ModeSTransponderStatus (mst_word_of v).
Proof. pose proof (fields_mst_word_of v) as E. unfold fields_mst_word, with_one, layout_mst_word in E. cbn [map firstn skipn app] in E. repeat (apply cons_inj in E; let E1 := fresh "F" in destruct E as [E1 E]). unfold wf_ModeSTransponderStatus. repeat (match goal with |- _ /\ _ => apply conj end); match goal with F : ?a = bits _ _ _ |- _ ?a => rewrite F; u8_bits end. Qed.
Lemma mst_word_written x : room layout_mst_word (fields_mst_word x) -> mst_word_num x = enc 16 layout_mst_word (fields_mst_word x).
Proof. intros H. unfold layout_mst_word, fields_mst_word in *. room_bounds H. unfold mst_word_num. cbn [enc fst snd]. rewrite Z.lor_0_r.
  rewrite (shl8_ok _ 7 7 1), (shl8_ok _ 4 4 3), (shl8_ok _ 3 3 1), (shl8_ok _ 2 2 1), (shl8_ok _ 1 1 1) by (first [eassumption | reflexivity | lia]).
  rewrite (shl16_ok _ 8 8 8) by (first [reflexivity | lia | repeat (apply lor_lt; [lia| |]); upto]).
  rewrite !Z.shiftl_lor, !Z.shiftl_shiftl by lia. rewrite <- !Z.lor_assoc. repeat (apply lor_cong; [first [reflexivity | wr_leaf]|]). first [reflexivity | wr_leaf]. Qed.
(*@C59 The Mode S transponder status record is read from every word, and written, as the layout says; it comes back from the wire if and only if its numbers have room. *)
Lemma iff_mst_word_on_the_wire_pf : record_on_the_wire 16 layout_mst_word fields_mst_word wf_ModeSTransponderStatus mst_word_of mst_word_num.
Proof. apply on_wire; [lia|lay_ok|intros v; split; [apply wf_mst_word_of|apply fields_mst_word_of]|intros x _; apply mst_word_written|fields_inj]. Qed.
(*@C59 So three records do not come back from the wire: a healthy Mode S interrogator is read as malfunctioning, a transponder without level 4 as having it, and the track angle rate as having a data record. *)
Lemma iff_constant_bits_refuted_pf : ~ record_on_the_wire 8 layout_msi_word fields_msi_word wf_ModeSInterrogatorStatus msi_word_of msi_word_num /\
  ~ record_on_the_wire 8 layout_levels_word fields_levels_word wf_ModeSLevels levels_word_of levels_word_num /\
  ~ record_on_the_wire 8 layout_dap_word fields_dap_word wf_DapSource dap_word_of dap_word_num.
Proof. repeat match goal with |- _ /\ _ => apply conj end; intros (R & _); specialize (R 0 ltac:(lia)); destruct R as [_ R]; vm_compute in R; discriminate. Qed.

(** ** The words of the PDU model are these records *)
Lemma full_mask v n : 0 <= n -> 0 <= v < 2 ^ n -> Z.land v (2 ^ n - 1) = v.
Proof. intros N V. replace (2 ^ n - 1) with (Z.ones n) by (rewrite Z.ones_equiv; lia). rewrite Z.land_ones by lia. apply Z.mod_small. lia. Qed.
Lemma kept_change_options v : 0 <= v < 256 -> change_options_num (change_options_of v) = v.
Proof. intros V. rewrite change_options_written by (rewrite fields_change_options_of; apply (room_bits 8 _ _ 0); lay_ok). rewrite fields_change_options_of, (enc_mask _ _ _ 0) by lay_ok. match goal with |- Z.land _ ?k = _ => let k' := eval vm_compute in k in change k with k' end. apply (full_mask v 8); [lia|exact V]. Qed.
Lemma kept_system_status v : 0 <= v < 256 -> system_status_num (system_status_of v) = v.
Proof. intros V. rewrite system_status_written by (rewrite fields_system_status_of; apply (room_bits 8 _ _ 0); lay_ok). rewrite fields_system_status_of, (enc_mask _ _ _ 0) by lay_ok. match goal with |- Z.land _ ?k = _ => let k' := eval vm_compute in k in change k with k' end. apply (full_mask v 8); [lia|exact V]. Qed.
Lemma kept_information_layers v : information_layers_num (information_layers_of v) = bits_of m_layers 0 v.
Proof. rewrite information_layers_written by (rewrite fields_information_layers_of; apply (room_bits 8 _ _ 0); lay_ok). rewrite fields_information_layers_of, (enc_mask _ _ _ 0) by lay_ok. unfold bits_of. now rewrite Z.lor_0_r. Qed.
Lemma kept_m5i_word v : m5i_word_num (m5i_word_of v) = bits_of m_m5i_status 0 v.
Proof. rewrite m5i_word_written by (rewrite fields_m5i_word_of; apply (room_bits 8 _ _ 0); lay_ok). rewrite fields_m5i_word_of, (enc_mask _ _ _ 0) by lay_ok. unfold bits_of. now rewrite Z.lor_0_r. Qed.
Lemma kept_message_formats v : 0 <= v < 4294967296 -> message_formats_num (message_formats_of v) = v.
Proof. intros V. rewrite message_formats_written by (rewrite fields_message_formats_of; apply (room_bits 32 _ _ 0); lay_ok). rewrite fields_message_formats_of, (enc_mask _ _ _ 0) by lay_ok. match goal with |- Z.land _ ?k = _ => let k' := eval vm_compute in k in change k with k' end. apply (full_mask v 32); [lia|exact V]. Qed.
Lemma kept_mode1_code v : mode1_code_num (mode1_code_of v) = bits_of m_mode1 0 v.
Proof. rewrite mode1_code_written by (rewrite fields_mode1_code_of; apply (room_bits 16 _ _ 0); lay_ok). rewrite fields_mode1_code_of, (enc_mask _ _ _ 0) by lay_ok. unfold bits_of. now rewrite Z.lor_0_r. Qed.
Lemma kept_supplemental_data v : supplemental_data_num (supplemental_data_of v) = bits_of m_supplemental 0 v.
Proof. rewrite supplemental_data_written by (rewrite fields_supplemental_data_of; apply (room_bits 8 _ _ 0); lay_ok). rewrite fields_supplemental_data_of, (enc_mask _ _ _ 0) by lay_ok. unfold bits_of. now rewrite Z.lor_0_r. Qed.
Lemma kept_m5t_word v : m5t_word_num (m5t_word_of v) = bits_of m_m5t_status 0 v.
Proof. rewrite m5t_word_written by (rewrite fields_m5t_word_of; apply (room_bits 16 _ _ 0); lay_ok). rewrite fields_m5t_word_of, (enc_mask _ _ _ 0) by lay_ok. unfold bits_of. now rewrite Z.lor_0_r. Qed.
Lemma kept_altitude_word v : altitude_word_num (altitude_word_of v) = bits_of m_altitude 0 v.
Proof. rewrite altitude_word_written by (rewrite fields_altitude_word_of; apply (room_bits 16 _ _ 0); lay_ok). rewrite fields_altitude_word_of, (enc_mask _ _ _ 0) by lay_ok. unfold bits_of. now rewrite Z.lor_0_r. Qed.
Lemma kept_msi_word v : msi_word_num (msi_word_of v) = bits_of m_msi_status 4 v.
Proof. rewrite msi_word_written by (rewrite fields_msi_word_of; eapply with_one_room; [apply (room_bits 8 _ _ 0); lay_ok|reflexivity|cbn; lia]). rewrite fields_msi_word_of. unfold bits_of.
  change (Z.land v m_msi_status) with (Z.land v (enc 8 (firstn 3 layout_msi_word ++ skipn 4 layout_msi_word) (map (fun p => 2 ^ (snd p - fst p + 1) - 1) (firstn 3 layout_msi_word ++ skipn 4 layout_msi_word)))). rewrite <- (enc_mask _ _ _ 0) by lay_ok.
  unfold with_one, layout_msi_word. cbn [enc map firstn skipn app fst snd]. change (Z.shiftl 1 (8 - 1 - 5)) with 4. apply Z.bits_inj'. intros i _. rewrite !Z.lor_spec, ?Z.bits_0. btauto. Qed.
Lemma kept_levels_word v : levels_word_num (levels_word_of v) = bits_of m_levels 4 v.
Proof. rewrite levels_word_written by (rewrite fields_levels_word_of; eapply with_one_room; [apply (room_bits 8 _ _ 0); lay_ok|reflexivity|cbn; lia]). rewrite fields_levels_word_of. unfold bits_of.
  change (Z.land v m_levels) with (Z.land v (enc 8 (firstn 4 layout_levels_word ++ skipn 5 layout_levels_word) (map (fun p => 2 ^ (snd p - fst p + 1) - 1) (firstn 4 layout_levels_word ++ skipn 5 layout_levels_word)))). rewrite <- (enc_mask _ _ _ 0) by lay_ok.
  unfold with_one, layout_levels_word. cbn [enc map firstn skipn app fst snd]. change (Z.shiftl 1 (8 - 1 - 5)) with 4. apply Z.bits_inj'. intros i _. rewrite !Z.lor_spec, ?Z.bits_0. btauto. Qed.
Lemma kept_dap_word v : dap_word_num (dap_word_of v) = bits_of m_dap 8 v.
Proof. rewrite dap_word_written by (rewrite fields_dap_word_of; eapply with_one_room; [apply (room_bits 8 _ _ 0); lay_ok|reflexivity|cbn; lia]). rewrite fields_dap_word_of. unfold bits_of.
  change (Z.land v m_dap) with (Z.land v (enc 8 (firstn 4 layout_dap_word ++ skipn 5 layout_dap_word) (map (fun p => 2 ^ (snd p - fst p + 1) - 1) (firstn 4 layout_dap_word ++ skipn 5 layout_dap_word)))). rewrite <- (enc_mask _ _ _ 0) by lay_ok.
  unfold with_one, layout_dap_word. cbn [enc map firstn skipn app fst snd]. change (Z.shiftl 1 (8 - 1 - 4)) with 8. apply Z.bits_inj'. intros i _. rewrite !Z.lor_spec, ?Z.bits_0. btauto. Qed.
Lemma kept_mst_word v : mst_word_num (mst_word_of v) = bits_of m_mst_status 0 v.
Proof. rewrite mst_word_written by (rewrite fields_mst_word_of; apply (room_bits 16 _ _ 0); lay_ok). rewrite fields_mst_word_of, (enc_mask _ _ _ 0) by lay_ok. unfold bits_of. now rewrite Z.lor_0_r. Qed.
(*@C59 The words that the model of the IFF PDU (C09, C28) keeps are these records: reading a word, and writing the record that was read, gives the word of the PDU model. *)
Lemma iff_words_are_the_records_pf : forall v,
  (u8 v -> change_options_num (change_options_of v) = v) /\
  (u8 v -> system_status_num (system_status_of v) = v) /\
  information_layers_num (information_layers_of v) = bits_of m_layers 0 v /\
  m5i_word_num (m5i_word_of v) = bits_of m_m5i_status 0 v /\
  (u32 v -> message_formats_num (message_formats_of v) = v) /\
  mode1_code_num (mode1_code_of v) = bits_of m_mode1 0 v /\
  supplemental_data_num (supplemental_data_of v) = bits_of m_supplemental 0 v /\
  m5t_word_num (m5t_word_of v) = bits_of m_m5t_status 0 v /\
  altitude_word_num (altitude_word_of v) = bits_of m_altitude 0 v /\
  msi_word_num (msi_word_of v) = bits_of m_msi_status 4 v /\
  levels_word_num (levels_word_of v) = bits_of m_levels 4 v /\
  dap_word_num (dap_word_of v) = bits_of m_dap 8 v /\
  mst_word_num (mst_word_of v) = bits_of m_mst_status 0 v.
Proof. intros v.
  split; [intros V; apply kept_change_options; unfold u8, u16, u32 in V; lia|].
  split; [intros V; apply kept_system_status; unfold u8, u16, u32 in V; lia|].
  split; [apply kept_information_layers|].
  split; [apply kept_m5i_word|].
  split; [intros V; apply kept_message_formats; unfold u8, u16, u32 in V; lia|].
  split; [apply kept_mode1_code|].
  split; [apply kept_supplemental_data|].
  split; [apply kept_m5t_word|].
  split; [apply kept_altitude_word|].
  split; [apply kept_msi_word|].
  split; [apply kept_levels_word|].
  split; [apply kept_dap_word|].
  apply kept_mst_word. Qed.
(*@ex*)
Example iff_words_example :
  m5t_word_num (MkMode5TransponderStatus 5 Enabled_Yes 2 Presence_Present LatLonAlt_ComputeLocally 1 0 1 OnOff_On Damage_None Malfunction_Some) = 23893 /\
  m5t_word_of 23893 = MkMode5TransponderStatus 5 Enabled_Yes 2 Presence_Present LatLonAlt_ComputeLocally 1 0 1 OnOff_On Damage_None Malfunction_Some /\
  (* an altitude of 2^11 and more loses its high bits; a code element of 8 runs into its neighbour *)
  altitude_word_of (altitude_word_num (MkModeSAltitude 2049 1)) = MkModeSAltitude 1 1 /\
  mode1_code_of (mode1_code_num (MkEnhancedMode1Code 0 8 0 0 OnOff_Off Damage_None Malfunction_None)) = MkEnhancedMode1Code 1 0 0 0 OnOff_Off Damage_None Malfunction_None /\
  (* a healthy interrogator is read as malfunctioning *)
  msi_word_of (msi_word_num (MkModeSInterrogatorStatus OnOff_On 3 Damage_None Malfunction_None)) = MkModeSInterrogatorStatus OnOff_On 3 Damage_None Malfunction_Some.
Proof. repeat split. Qed.

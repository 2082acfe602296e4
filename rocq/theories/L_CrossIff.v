(** * Across the C-DIS wire: IFF (properties) *)
From Coq Require Import ZArith List Lia Bool Reals Lra.
From Verif Require Import Base CdisBase DisCommon DisHeader DisLists DisSimman DisLogistics DisWarfare DisEntity DisEmission DisRadio DisIff DisPdu DisPacket
  CdisRecords CdisBodies1 CdisBodies2 CdisIff CdisPdu CdisCodec1 CdisCodec2 CdisCodec3 SpecFloatValue SpecContent SpecBody SpecCross SpecCrossIff SpecCdisPdu SpecCodec SpecGateway
  Utf8 L_Codec L_CodecNum L_CodecPrec L_CodecContent L_CodecSim L_Gateway CrossFits CrossIff L_Cross.
Import ListNotations. Open Scope Z_scope.

Lemma iff_encodes g o now est p x c r est' : narrow_iff_pdu p x -> encode g o now est p = Some (c, r, est') ->
  cp_body c = CBIff (fst (enc_iff o now (en_iff est (Iff_emitting_entity_id x)) x)) /\ ch_exercise (cp_header c) = h_exercise (pdu_header p) /\ ch_type (cp_header c) = 28.
Proof.
  intros (X & B & T & W & N) E. unfold encode in E. rewrite B in E. cbn [enc_body] in E. cbv zeta in E. destruct (enc_iff o now _ x) as [k u]. injection E as <- _ _.
  unfold cfinalize, enc_header. cbn [cp_body cp_header ch_exercise ch_type fst]. rewrite T. auto.
Qed.
Lemma present_some {A} (o : option A) : present o -> o <> None.
Proof. unfold present. auto. Qed.
Lemma iff_sendable g o now est p x c r est' : narrow_iff_pdu p x -> encode g o now est p = Some (c, r, est') -> full_update (cp_body c) \/ no_basic_data x -> sendable c.
Proof.
  intros N E P. pose proof (iff_encodes _ _ _ _ _ _ _ _ _ N E) as (B & H1 & H2). destruct N as (X & _ & _ & W & N).
  unfold sendable. rewrite H1, H2, B. split; [exact X|]. split; [unfold u8; lia|]. split; [reflexivity|]. cbn [fits_cbody]. apply iff_fits; [exact W|exact N|].
  destruct P as [P|P]; [left|right; exact P]. rewrite B in P. cbn [full_update] in P. now apply present_some.
Qed.
Lemma quiet_iff x : Quiet (len_iff Wrapping x).
Proof.
  assert (R : forall l, Quiet (len_iff_records Wrapping l)).
  { intros l. unfold len_iff_records. apply quiet_bind; [|intros; apply quiet_add]. apply quiet_sum. intros v. apply quiet_bind; [|intros; apply quiet_ret].
    apply quiet_padded; [pose proof (zlen_nonneg (idr_fields v)); lia|lia]. }
  assert (K : forall A (f : A -> W Z) o, (forall a, Quiet (f a)) -> Quiet (w_option f o)) by (intros A f [a|] H; cbn [w_option]; [apply H|apply quiet_ret]).
  unfold len_iff. apply quiet_bind; [apply K; intros; unfold len_layer_2; apply quiet_bind; [apply quiet_mul|intros; apply quiet_add]|intros]. apply quiet_bind; [apply quiet_add|intros].
  apply quiet_bind; [apply K; intros; unfold len_layer_3; apply quiet_bind; [apply R|intros; apply quiet_add]|intros]. apply quiet_bind; [apply quiet_add|intros].
  apply quiet_bind; [apply K; intros; unfold len_layer_4; apply quiet_bind; [apply R|intros; apply quiet_add]|intros]. apply quiet_bind; [apply quiet_add|intros].
  apply quiet_bind; [apply K; intros; unfold len_layer_5; apply quiet_bind; [apply R|intros; apply quiet_add]|intros]. apply quiet_add.
Qed.

(*@C52 An IFF PDU that C-DIS has room for is always encoded; and when the update is full, or the PDU has neither layer 3 nor layer 4, its bits are read back, whatever follows them,
 as one C-DIS PDU, and a decoder (in release mode), whatever it has seen before, makes a DIS PDU of that. *)
Lemma cdis_iff_delivers_pf : forall m g oe od now est dst p x, narrow_iff_pdu p x ->
  exists c r est', encode g oe now est p = Some (c, r, est') /\
    (full_update (cp_body c) \/ no_basic_data x -> exists q p' r' dst', on_the_wire m c q /\ decode Wrapping g od dst q = WOk [] (p', r', dst')).
Proof.
  intros m g oe od now est dst p x N.
  assert (E : exists c r est', encode g oe now est p = Some (c, r, est')).
  { destruct N as (_ & B & _). unfold encode. rewrite B. cbn [enc_body]. cbv zeta. destruct (enc_iff _ _ _ _). do 3 eexists. reflexivity. }
  destruct E as (c & r & est' & E). exists c, r, est'. split; [exact E|]. intros P. pose proof (iff_sendable _ _ _ _ _ _ _ _ _ N E P) as S.
  destruct (BRT_sendable m c S) as (bs & W & _ & R). set (q := MkCPdu _ _) in R. exists q. pose proof (iff_encodes _ _ _ _ _ _ _ _ _ N E) as (B & _).
  unfold decode. change (cp_body q) with (img_cbody (cp_body c)). rewrite B. cbn [img_cbody dec_body]. cbv zeta. destruct (dec_iff _ _ _) as [y v].
  unfold finalize, with_length. cbn [body_length]. destruct (quiet_iff y) as [n K]. rewrite K. destruct (quiet_add 12 n) as [k A]. cbv [wbind wret]. rewrite A. do 3 eexists. split; [exists bs; split; [exact W|exact R]|]. reflexivity.
Qed.
Lemma layer2_over l : layer2_crossed l (dec_l2 (img_cl2 (enc_l2 l))).
Proof.
  unfold layer2_crossed, img_cl2, enc_l2, dec_l2, enc_lh, dec_lh, set_clh. cbv zeta.
  cbn [cl2_header cl2_beam cl2_op1 cl2_op2 cl2_params l2_header l2_beam l2_op1 l2_op2 l2_params clh_number clh_info lh_number lh_specific].
  do 2 (split; [reflexivity|]). split.
  - unfold beam_smeared, dec_beam, img_cbeam_data, enc_beam. cbn [cbd_az_center cbd_az_sweep cbd_el_center cbd_el_sweep cbd_sync bd_azc bd_azs bd_elc bd_els bd_sync].
    split; [apply beam_angle|]. do 3 (split; [reflexivity|]). apply sync_percent.
  - do 2 (split; [reflexivity|]). induction (l2_params l) as [|q qs IH]; constructor; [apply interrogation_back|exact IH].
Qed.
Lemma each_over {A B} (P : A -> A -> Prop) (f : A -> B) (i : B -> B) (h : B -> A) o : (forall a, P a (h (i (f a)))) -> each_or_none P o (option_map h (option_map i (option_map f o))).
Proof. intros H. destruct o; cbn; auto. Qed.
(*@C52 ... and what arrives of it: everything the codec alone would have, except that the four angles of the beam of layer 2 are all the azimuth centre. *)
Lemma cdis_iff_crosses_pf : forall m g oe od p c p' x, narrow_iff_pdu p x -> crosses m g oe od p c p' -> full_update (cp_body c) \/ no_basic_data x ->
  h_exercise (pdu_header p') = h_exercise (pdu_header p) /\ h_type (pdu_header p') = h_type (pdu_header p) /\
  exists y, pdu_body p' = BIff y /\ iff_crossed x y /\ (full_update (cp_body c) -> Iff_system_id y = Iff_system_id x).
Proof.
  intros m g oe od p c p' x N (now & est & dst & r & est' & q & r' & dst' & E & W & D) P. pose proof (iff_sendable _ _ _ _ _ _ _ _ _ N E P) as S. pose proof (wire_image _ _ _ S W) as ->.
  pose proof (iff_encodes _ _ _ _ _ _ _ _ _ N E) as (B & HX & HT). clear W. destruct N as (_ & _ & T & _).
  unfold decode in D. cbn [cp_body cp_header] in D. rewrite B in D |- *. clear P E S B. set (st := en_iff est _) in *. clearbody st. cbn [img_cbody dec_body full_update] in D |- *. cbv zeta in D.
  set (st2 := dn_iff dst _) in D. clearbody st2. unfold enc_iff in *. cbv zeta in *. pose proof (spot_back (Iff_antenna x)) as S.
  destruct (if vec_zero _ then _ else _) as [ant eu]. destruct S as [_ S]. cbn [fst] in *.
  unfold dec_iff, img_ciff in D. cbv zeta in D. revert D. iff_proj. intros D.
  unfold finalize, with_length in D. cbv [wbind wret] in D. destruct (body_length m _) as [l1 n|]; [|discriminate]. destruct (add16 m 12 n) as [l2 k|]; [|discriminate]. injection D as _ <- _ _.
  split; [exact HX|]. split; [cbn; rewrite T; reflexivity|]. eexists. split; [reflexivity|]. split.
  - unfold iff_crossed. iff_proj. rewrite eid_back, event_back_opt, nonzero_back. do 2 (split; [reflexivity|]). split; [exact S|]. do 2 (split; [reflexivity|]).
    unfold dec_fod, enc_fod. cbn [cfo_status cfo_field1 cfo_layers cfo_field2 fo_status fo_field1 fo_layers fo_field2]. rewrite !nonzero_back. do 4 (split; [reflexivity|]).
    split; [apply each_over, layer2_over|]. split; [apply each_over, layer3_back|]. split; [apply each_over, layer4_back|apply each_over, layer5_back].
  - iff_proj. cbn [CIff_system]. destruct (partial_ok _ _ _ _); intros FU; [destruct (FU eq_refl)|reflexivity].
Qed.

(** ** A partial update leaves out the system type that tells an interrogator from a transponder *)
Lemma bbind_ok {A B} (p : bitparser A) (f : A -> bitparser B) i r b : pbind p f i = POk r b -> exists r1 a, p i = POk r1 a /\ f a r1 = POk r b.
Proof. unfold pbind. destruct (p i) as [r1 a|k|]; try discriminate. eauto. Qed.
Tactic Notation "bnext" hyp(H) ident(E) := apply bbind_ok in H; let a := fresh "a" in let r := fresh "r" in destruct H as (r & a & E & H).
Lemma unannounced x m bs rest r y : CIff_system x = None -> w_ciff m x = WOk bs tt -> p_ciff (bs ++ rest) = POk r y ->
  CIff_system y = None /\ (forall l, CIff_layer3 y = Some l -> cl3_basic l = CM5Transponder default_m5t) /\ (forall l, CIff_layer4 y = Some l -> cl4_basic l = MSTransponder default_mst).
Proof.
  intros S W P. assert (Hub : ub 12 (fields_ciff x)) by (unfold fields_ciff, fields_cfo; ub_word).
  assert (F : field_present (fields_ciff x) 512 = false) by (replace false with (is_some (CIff_system x)) by (now rewrite S); unfold fields_ciff, fields_cfo; fp_tac).
  destruct (BRT_put 16 12 (fields_ciff x) ltac:(lia) Hub) as (b1 & E1 & _ & R1).
  assert (K : exists b2, bs = b1 ++ b2).
  { unfold w_ciff in W. unfold wbind at 1 in W. rewrite E1 in W. match type of W with (match ?k with _ => _ end) = _ => destruct k as [b2 u|]; [|discriminate] end. injection W as <- _. eauto. }
  destruct K as [b2 ->]. rewrite <- app_assoc in P. unfold p_ciff in P. bnext P Q. rewrite R1 in Q. injection Q as <- <-.
  bnext P Q1. bnext P Q2. bnext P Q3. bnext P Q4. bnext P Q5. bnext P Q6. unfold p_when in Q6. rewrite F in Q6. injection Q6 as _ <-.
  bnext P Q7. bnext P Q8. bnext P Q9. bnext P L2. bnext P L3. bnext P L4. bnext P L5. injection P as _ <-. cbn [CIff_system CIff_layer3 CIff_layer4 sys_type] in *.
  split; [reflexivity|]. split; intros l ->.
  - unfold p_if in L3. match type of L3 with (if ?b then _ else _) _ = _ => destruct b; [|discriminate] end. bnext L3 D. unfold pret in L3; injection L3 as _ <-. unfold p_cl3 in D. bnext D D1. bnext D D2. bnext D D3. bnext D D4. bnext D D5. bnext D D6. injection D as _ <-.
    cbn [cl3_basic]. unfold p_cm5 in D5. now injection D5.
  - unfold p_if in L4. match type of L4 with (if ?b then _ else _) _ = _ => destruct b; [|discriminate] end. bnext L4 D. unfold pret in L4; injection L4 as _ <-. unfold p_cl4 in D. bnext D D1. bnext D D2. bnext D D3. bnext D D4. bnext D D5. bnext D D6. injection D as _ <-.
    cbn [cl4_basic]. unfold p_cms in D5. now injection D5.
Qed.
(*@C52 A partial update does not carry the basic data of the layers 3 and 4: it leaves out the system type, without which the reader takes neither an interrogator nor a transponder
 from the wire; whatever arrives of such a PDU, its basic data is that of a transponder, all zero. *)
Lemma cdis_iff_partial_crosses_refuted_pf : forall m g oe od p c p' x, u8 (h_exercise (pdu_header p)) -> h_type (pdu_header p) = 28 -> pdu_body p = BIff x ->
  crosses m g oe od p c p' -> partial_update (cp_body c) ->
  exists y, pdu_body p' = BIff y /\ (forall l, Iff_layer_3 y = Some l -> l3_basic l = M5Transponder (MkM5T 0 0 0 0 0 0 0 0)) /\
    (forall l, Iff_layer_4 y = Some l -> l4_basic l = MSTransponder (MkMST 0 0 0 [] 0 0 0 0 0)).
Proof.
  intros m g oe od p c p' x X T B (now & est & dst & r & est' & q & r' & dst' & E & (bs & W & R) & D) P.
  unfold encode in E. rewrite B in E. cbn [enc_body] in E. cbv zeta in E. destruct (enc_iff oe now _ x) as [k u]. injection E as <- _ _.
  unfold cfinalize in P, W. cbn [cp_body partial_update] in P. unfold absent in P. unfold w_cpdu in W. cbn [cp_header cp_body ch_version ch_exercise ch_type ch_timestamp ch_length ch_status] in W.
  set (h := MkCHeader _ _ _ _ _ _) in W. assert (HX : u8 (ch_exercise h)) by exact X. assert (HT : ch_type h = 28) by exact T. clearbody h.
  destruct (BRT_cheader_cut h HX ltac:(rewrite HT; unfold u8; lia)) as (b1 & E1 & _ & R1). unfold wbind at 1 in W. rewrite E1 in W. cbn [w_cbody] in W. unfold wbind at 1 in W.
  destruct (w_ciff m k) as [b2 u2|] eqn:E2; [|discriminate]. destruct u2. unfold wret in W. injection W as <-. specialize (R []). rewrite app_nil_r in R. unfold p_cpdu in R. bnext R Q. rewrite app_nil_r, R1 in Q. injection Q as <- <-.
  change (ch_type (cut_header h)) with (ch_type h) in R. rewrite HT in R. bnext R Q. cbn [p_cbody] in Q. unfold pret in R. injection R as -> <-.
  change (p_cbody 28) with (y <- p_ciff;; pret (CBIff y))%parse in Q. apply bbind_ok in Q. destruct Q as (rr & cy & K & Q). injection Q as _ <-. rewrite <- (app_nil_r b2) in K.
  destruct (unannounced k m b2 [] _ _ P E2 K) as (N1 & N3 & N4).
  unfold decode in D. cbn [cp_body cp_header dec_body] in D. cbv zeta in D. destruct (dec_iff od _ cy) as [y v] eqn:EY.
  assert (L : Iff_layer_3 y = option_map dec_l3 (CIff_layer3 cy) /\ Iff_layer_4 y = option_map dec_l4 (CIff_layer4 cy)) by (unfold dec_iff in EY; cbv zeta in EY; injection EY as <- _; split; reflexivity).
  destruct L as [L3 L4]. unfold finalize, with_length in D. cbv [wbind wret] in D. destruct (body_length m _) as [l1 n|]; [|discriminate]. destruct (add16 m 12 n) as [l2 kk|]; [|discriminate]. injection D as _ <- _ _.
  exists y. split; [reflexivity|]. rewrite L3, L4. split; intros l H; apply map_some in H; destruct H as (cl & H & ->).
  - unfold dec_l3. cbv zeta. cbn [l3_basic]. now rewrite (N3 cl H).
  - unfold dec_l4. cbn [l4_basic]. now rewrite (N4 cl H).
Qed.
(** an interrogator with a beam and data records, and a mode S transponder; and one octet of records in layer 5 *)
Definition iff_sender (system : Z) (l3 : option IffLayer3) (l4 : option IffLayer4) : Iff :=
  MkIff sent_id (MkEventId (MkSimulationAddress 1 2) 9) one_vec (MkSystemId system 7 2 3) 4 5
    (MkFundOpData 128 1 (36 + (if is_some l3 then 16 else 0) + (if is_some l4 then 8 else 0)) 2 100 0 0 7 0 0)
    (Some (MkIffLayer2 (MkLayerHeader 2 1 0) (MkBeamData 1065353216 0 1073741824 0 1065353216) 1 2 [MkIffParameter 1065353216 1073741824 1065353216 0 1073741824 3 1 2 3])) l3 l4
    (Some (MkIffLayer5 (MkLayerHeader 5 0 0) (MkSimulationAddress 1 2) 60 1 [MkIffDataRecord 3500 [1; 2]])).
Definition iff_interrogator : Iff :=
  iff_sender 2 (Some (MkIffLayer3 (MkLayerHeader 3 0 0) (MkSimulationAddress 1 2) (M5Interrogator (MkM5I 129 12 other_id)) [])) None.
Definition iff_transponder : Iff :=
  iff_sender 1 None (Some (MkIffLayer4 (MkLayerHeader 4 0 0) (MkSimulationAddress 1 2) (MSTransponder (MkMST 32769 12 1 [65; 66; 49] 1000000 1 8 4096 2)) [MkIffDataRecord 7 [1; 2; 3]])).
Ltac narrow_sent := intros l E; first [discriminate E | injection E as <-].
Lemma sent_layer_2 : narrow_layer_2 (MkIffLayer2 (MkLayerHeader 2 1 0) (MkBeamData 1065353216 0 1073741824 0 1065353216) 1 2 [MkIffParameter 1065353216 1073741824 1065353216 0 1073741824 3 1 2 3]).
Proof.
  unfold narrow_layer_2, narrow_beam. cbn [l2_header l2_beam l2_params lh_number bd_azc bd_azs bd_elc bd_els bd_sync]. split; [lia|]. split.
  - split; [|split; [fin32|rewrite one32; lra]]. intros a [<-|[<-|[<-|[<-|[]]]]]; (split; [fin32|]); rewrite ?one32, ?two32, ?zero32; lra.
  - split; [vm_compute; discriminate|]. constructor; [|constructor]. unfold narrow_interrogation. cbn [ip_frequency ip_modes ip_pgrf ip_pulse_width ip_burst]. split; [fin32|]. split; [rewrite two32; lra|]. split; [lia|].
    intros a [<-|[<-|[<-|[]]]]; (split; [fin32|]); rewrite ?one32, ?two32, ?zero32; lra.
Qed.
Lemma sent_records t f : t < 65536 -> zlen f <= 252 -> narrow_records [MkIffDataRecord t f].
Proof. intros A B. split; [intros r [<-|[]]; auto|]. split; [vm_compute; discriminate|]. cbn [map zsum idr_fields]. lia. Qed.
Lemma sent_layer_5 : narrow_layer_5 (MkIffLayer5 (MkLayerHeader 5 0 0) (MkSimulationAddress 1 2) 60 1 [MkIffDataRecord 3500 [1; 2]]).
Proof. unfold narrow_layer_5. cbn [l5_header l5_layers l5_category l5_records lh_number]. do 3 (split; [lia|]). apply sent_records; [lia|vm_compute; discriminate]. Qed.

Lemma interrogator_narrow : wf_Iff iff_interrogator /\ narrow_iff iff_interrogator.
Proof.
  split.
  - unfold iff_interrogator, iff_sender. repeat split; try (repeat constructor); unfold u8, u16, u32; cbn; try lia.
  - unfold narrow_iff, iff_interrogator, iff_sender. cbn [Iff_system_id Iff_layer_2 Iff_layer_3 Iff_layer_4 Iff_layer_5 si_type]. split; [repeat split; reflexivity|]. split; [repeat split; reflexivity|].
    split; [narrow_sent; exact sent_layer_2|]. split; [narrow_sent|split; [narrow_sent|narrow_sent; exact sent_layer_5]].
    unfold narrow_layer_3. cbn [l3_header lh_number l3_basic l3_records narrow_mode5 m5_ok]. split; [lia|]. split; [exact I|]. split; [split; reflexivity|]. split; [intros r []|]. split; vm_compute; discriminate.
Qed.
Lemma transponder_narrow : wf_Iff iff_transponder /\ narrow_iff iff_transponder.
Proof.
  split.
  - unfold iff_transponder, iff_sender. repeat split; try (repeat constructor); unfold u8, u16, u32; cbn; try lia.
  - unfold narrow_iff, iff_transponder, iff_sender. cbn [Iff_system_id Iff_layer_2 Iff_layer_3 Iff_layer_4 Iff_layer_5 si_type]. split; [repeat split; reflexivity|]. split; [repeat split; reflexivity|].
    split; [narrow_sent; exact sent_layer_2|]. split; [narrow_sent|split; [narrow_sent|narrow_sent; exact sent_layer_5]].
    unfold narrow_layer_4. cbn [l4_header lh_number l4_basic l4_records narrow_modes ms_ok mst_domain mst_idtype mst_status mst_levels mst_dap mst_altitude mst_id]. split; [lia|]. split; [lia|].
    split; [|apply sent_records; [lia|vm_compute; discriminate]]. do 5 (split; [reflexivity|]). split; [vm_compute; discriminate|]. split; [repeat constructor; lia|]. right. exists [65; 66], 49. split; reflexivity.
Qed.
Lemma sent_iff_narrow x : wf_Iff x /\ narrow_iff x -> narrow_iff_pdu (on_its_way (BIff x)) x.
Proof. intros [W N]. unfold narrow_iff_pdu, on_its_way. cbn [pdu_header pdu_body body_type]. split; [unfold u8; cbn; lia|]. split; [reflexivity|]. split; [reflexivity|]. split; assumption. Qed.
Lemma iff_example x : narrow_iff_pdu (on_its_way (BIff x)) x ->
  exists c p', crosses Wrapping plain_geo new_full_update new_partial_update (on_its_way (BIff x)) c p' /\ full_update (cp_body c).
Proof.
  intros N. destruct (cdis_iff_delivers_pf Wrapping plain_geo new_full_update new_partial_update 0 enc_state_new dec_state_new _ _ N) as (c & r & e & E & D).
  pose proof (iff_encodes _ _ _ _ _ _ _ _ _ N E) as (B & _). assert (F : full_update (cp_body c)) by (rewrite B; cbn [full_update]; unfold enc_iff; cbv zeta; destruct (if vec_zero _ then _ else _); discriminate).
  destruct (D (or_introl F)) as (q & p' & r' & d & O & K). exists c, p'. split; [|exact F]. exists 0, enc_state_new, dec_state_new, r, e, q, r', d. auto.
Qed.
Lemma iff_examples : Forall (fun x => narrow_iff_pdu (on_its_way (BIff x)) x /\
  exists c p', crosses Wrapping plain_geo new_full_update new_partial_update (on_its_way (BIff x)) c p' /\ full_update (cp_body c)) [iff_interrogator; iff_transponder].
Proof.
  constructor; [|constructor; [|constructor]]; (split; [apply sent_iff_narrow; first [exact interrogator_narrow|exact transponder_narrow]|apply iff_example, sent_iff_narrow; first [exact interrogator_narrow|exact transponder_narrow]]).
Qed.
(*@ex*)
Example cdis_iff_crosses_example : Forall (fun x => narrow_iff_pdu (on_its_way (BIff x)) x /\
  exists c p', crosses Wrapping plain_geo new_full_update new_partial_update (on_its_way (BIff x)) c p' /\ full_update (cp_body c)) [iff_interrogator; iff_transponder].
Proof. exact iff_examples. Qed.
(** what an encoder in partial update mode sends one second after it has sent the same PDU *)
Definition sent_again (p : Pdu) : option CPdu :=
  match encode plain_geo new_partial_update 0 enc_state_new p with
  | Some (_, _, st) => match encode plain_geo new_partial_update 1000000000 st p with Some (c, _, _) => Some c | None => None end
  | None => None
  end.
Definition lost (c : CPdu) : bool :=
  match w_cpdu Wrapping c, w_cpdu Checked c with
  | WOk bs _, WOk bs' _ => match p_cpdu bs, p_cpdu bs' with POk [] _, _ | _, POk [] _ => false | _, _ => true end
  | _, _ => false
  end.
Lemma lost_spec c : lost c = true -> forall m, ~ exists q, on_the_wire m c q.
Proof.
  unfold lost. intros H m (q & bs & W & P). specialize (P []). rewrite app_nil_r in P.
  destruct m.
  - destruct (w_cpdu Wrapping c) as [bs0 u|]; [|discriminate]. rewrite W in H. rewrite P in H. destruct (p_cpdu bs0) as [[|] ?| |]; discriminate.
  - rewrite W in H. rewrite P in H. destruct (w_cpdu Checked c); discriminate.
Qed.
Lemma again_lost x : match sent_again (on_its_way (BIff x)) with Some c => lost c | None => false end = true ->
  exists c, sent_again (on_its_way (BIff x)) = Some c /\ forall m, ~ exists q, on_the_wire m c q.
Proof. destruct (sent_again _) as [c|]; [|discriminate]. intros H. exists c. split; [reflexivity|]. now apply lost_spec. Qed.
(*@C52 In fact such PDUs are not read at all: those of the two examples above, sent a second time in partial update mode, a second later. *)
Lemma cdis_iff_partial_lost_pf : forall x, In x [iff_interrogator; iff_transponder] ->
  exists c, sent_again (on_its_way (BIff x)) = Some c /\ forall m, ~ exists q, on_the_wire m c q.
Proof. intros x [<-|[<-|[]]]; apply again_lost; vm_compute; reflexivity. Qed.

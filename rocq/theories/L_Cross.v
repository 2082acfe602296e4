(** * Across the C-DIS wire (properties) *)
From Coq Require Import ZArith List Lia Bool Reals Lra.
From Verif Require Import Base CdisBase DisCommon DisHeader DisLists DisSimman DisLogistics DisWarfare DisEntity DisEmission DisRadio DisIff DisPdu DisPacket
  CdisRecords CdisBodies1 CdisBodies2 CdisIff CdisPdu CdisCodec1 CdisCodec2 CdisCodec3 SpecFloatValue SpecContent SpecBody SpecCross SpecCdisPdu SpecCodec SpecGateway
  Utf8 L_Codec L_CodecPrec L_CodecContent L_CodecSim L_Gateway CrossFits.
Import ListNotations. Open Scope Z_scope.

Lemma narrow_sendable g o now st p c r st' : narrow_pdu g p -> encode g o now st p = Some (c, r, st') -> sendable c.
Proof.
  intros (X & T & W & N) E. unfold encode in E. destruct (enc_body g o now st (pdu_body p)) as [[[b q] s]|] eqn:B; [|discriminate]. injection E as <- _ _.
  unfold sendable, cfinalize, enc_header. cbn [cp_header cp_body ch_exercise ch_type]. split; [exact X|]. rewrite T.
  destruct (pdu_body p) as []; cbn [narrow_body] in N; try contradiction; cbn [body_type wf_body] in *; (split; [unfold u8; lia|]); cbn [enc_body] in B.
  - destruct (enc_es g o now _ _) as [[c u]|] eqn:EE; [|discriminate]. injection B as <- _ _. split; [reflexivity|]. eapply entity_state_fits; eassumption.
  - injection B as <- _ _. split; [reflexivity|]. now apply (fire_fits g).
  - injection B as <- _ _. split; [reflexivity|]. now apply (detonation_fits g).
  - injection B as <- _ _. split; [reflexivity|]. now apply collision_fits.
  - destruct (enc_designator g o now _ _) as [c u] eqn:EE. injection B as <- _ _. split; [reflexivity|]. change c with (fst (c, u)). rewrite <- EE. now apply designator_fits.
  - destruct (enc_transmitter g o now _ _) as [c u] eqn:EE. injection B as <- _ _. split; [reflexivity|]. change c with (fst (c, u)). rewrite <- EE. now apply transmitter_fits.
  - injection B as <- _ _. split; [reflexivity|]. now apply signal_fits.
  - injection B as <- _ _. split; [reflexivity|]. now apply receiver_fits.
Qed.
Lemma wire_image m c q : sendable c -> on_the_wire m c q -> q = MkCPdu (cut_header (cp_header c)) (img_cbody (cp_body c)).
Proof.
  intros S (bs & W & P). destruct (BRT_sendable m c S) as (bs' & W' & _ & P'). rewrite W in W'. injection W' as <-.
  specialize (P []). specialize (P' []). rewrite P in P'. now injection P'.
Qed.
Lemma finalize_any m h h' b t t' l q : finalize m h b t = WOk l q -> exists q', finalize m h' b t' = WOk l q' /\ pdu_body q' = b.
Proof.
  unfold finalize, with_length. cbv [wbind wret]. destruct (body_length m b) as [l1 n|]; [|discriminate]. destruct (add16 m 12 n) as [l2 k|]; [|discriminate].
  intros F. injection F as <- _. eexists. split; reflexivity.
Qed.
(** the place in a body, and the geodesy that makes of the body sent what the real one makes of the body received *)
Definition place_of (b : PduBody) : option Location :=
  match b with
  | BFire x => Some (Fire_location_in_world x) | BDetonation x => Some (Detonation_world_location x) | BEntityState x => Some (EntityState_location x)
  | BDesignator x => Some (Designator_spot_location x) | BTransmitter x => Some (Transmitter_antenna_location x) | _ => None
  end.
Definition geo_at (g : Geo) (l : Location) : Geo := MkGeo (to_lla g) (fun _ _ _ => (loc_x l, loc_y l, loc_z l)).
Lemma dec_at g l c u : dec_world (geo_at g l) c u = l.
Proof. destruct l. reflexivity. Qed.
Definition arrived (g : Geo) (l : Location) : Location := dec_world g (img_cwc (fst (enc_world g l))) (snd (enc_world g l)).
Lemma fire_img g x : dec_fire g (img_cfire x) = dec_fire (geo_at g (dec_world g (img_cwc (CFire_location x)) (CFire_units x))) x.
Proof. unfold dec_fire. rewrite dec_at. reflexivity. Qed.
Lemma detonation_img g x : dec_detonation g (img_cdetonation x) = dec_detonation (geo_at g (dec_world g (img_cwc (CDetonation_location x)) (fst (CDetonation_units x)))) x.
Proof. unfold dec_detonation. rewrite dec_at. reflexivity. Qed.
Lemma es_img g o st x w : CEntityState_location x = Some w -> dec_es g o st (img_ces x) = dec_es (geo_at g (dec_world g (img_cwc w) (CEntityState_units x))) o st x.
Proof. destruct x as [f0 f1 f2 f3 f4 f5 f6 f7 f8 f9 f10 f11 f12 f13 f14 f15 f16]. cbn [CEntityState_location]. intros ->. unfold dec_es, img_ces. es_proj. rewrite dec_at. reflexivity. Qed.
Lemma es_img_none x : CEntityState_location x = None -> img_ces x = x.
Proof. destruct x as [f0 f1 f2 f3 f4 f5 f6 f7 f8 f9 f10 f11 f12 f13 f14 f15 f16]. cbn [CEntityState_location]. intros ->. reflexivity. Qed.
Lemma des_img g st x w : CDesignator_spot_location x = Some w -> dec_designator g st (img_cdesignator x) = dec_designator (geo_at g (dec_world g (img_cwc w) (snd (CDesignator_units x)))) st x.
Proof. destruct x as [f0 f1 f2 f3 f4 f5 f6 f7 f8 f9 f10 f11]. cbn [CDesignator_spot_location]. intros ->. unfold dec_designator, img_cdesignator. cbv zeta.
  cbn [CDesignator_units CDesignator_full CDesignator_id CDesignator_code_name CDesignator_designated CDesignator_code CDesignator_power CDesignator_wavelength CDesignator_spot_entity CDesignator_spot_location CDesignator_dr_algorithm CDesignator_dr_acceleration option_map unopt].
  rewrite !dec_at. destruct f1; reflexivity. Qed.
Lemma des_img_none x : CDesignator_spot_location x = None -> img_cdesignator x = x.
Proof. destruct x as [f0 f1 f2 f3 f4 f5 f6 f7 f8 f9 f10 f11]. cbn [CDesignator_spot_location]. intros ->. reflexivity. Qed.
Lemma tx_img g o st x w : CTransmitter_antenna x = Some w -> dec_transmitter g o st (img_ctransmitter x) = dec_transmitter (geo_at g (dec_world g (img_cwc w) (fst (CTransmitter_units x)))) o st x.
Proof. destruct x as [f0 f1 f2 f3 f4 f5 f6 f7 f8 f9 f10 f11 f12 f13 f14 f15 f16 f17 f18]. cbn [CTransmitter_antenna]. intros ->. unfold dec_transmitter, img_ctransmitter. cbv zeta.
  cbn [CTransmitter_units CTransmitter_full CTransmitter_radio CTransmitter_number CTransmitter_rtype CTransmitter_state CTransmitter_source CTransmitter_antenna CTransmitter_relative CTransmitter_ptype CTransmitter_frequency CTransmitter_bandwidth CTransmitter_power CTransmitter_modulation CTransmitter_crypto CTransmitter_key CTransmitter_modparams CTransmitter_pattern CTransmitter_vtps option_map unopt].
  rewrite !dec_at. destruct (o_partial o && negb f1); reflexivity. Qed.
Lemma tx_img_none x : CTransmitter_antenna x = None -> img_ctransmitter x = x.
Proof. destruct x as [f0 f1 f2 f3 f4 f5 f6 f7 f8 f9 f10 f11 f12 f13 f14 f15 f16 f17 f18]. cbn [CTransmitter_antenna]. intros ->. reflexivity. Qed.
Lemma crosses_translated m g oe od p c p' : narrow_pdu g p -> crosses m g oe od p c p' ->
  exists g' p'', translated m g' oe od p c p'' /\ pdu_body p'' = pdu_body p' /\
    (partial_update (cp_body c) \/ forall l l', place_of (pdu_body p) = Some l -> place_kept g' l l' -> place_shrunk g l l').
Proof.
  intros N (now & est & dst & r & est' & q & r' & dst' & E & W & D). pose proof (narrow_sendable _ _ _ _ _ _ _ _ N E) as S. pose proof (wire_image _ _ _ S W) as Q.
  assert (K : exists g', to_lla g' = to_lla g /\ enc_body g' oe now est (pdu_body p) = enc_body g oe now est (pdu_body p) /\
    dec_body g od dst (img_cbody (cp_body c)) = dec_body g' od dst (cp_body c) /\ (partial_update (cp_body c) \/ forall l, place_of (pdu_body p) = Some l -> g' = geo_at g (arrived g l))).
  { clear W D. destruct N as (_ & _ & _ & N). unfold encode in E. destruct (enc_body g oe now est (pdu_body p)) as [[[b q'] s]|] eqn:B; [|discriminate]. injection E as <- _ _. cbn [cp_body cfinalize].
    destruct (pdu_body p) as []; cbn [narrow_body] in N; try contradiction; cbn [enc_body] in B; cbn [place_of].
    - match type of N with narrow_entity_state g ?x => set (l0 := EntityState_location x) end. cbv zeta in B. destruct (enc_es g oe now _ _) as [[c u]|] eqn:EE; [|discriminate]. 
      pose proof EE as EE'. unfold enc_es in EE. cbv zeta in EE. destruct (partial_ok oe _ now _).
      + exists g. split; [reflexivity|]. split; [cbn [enc_body]; cbv zeta; rewrite EE'; exact B|]. injection B as <- _ _. injection EE as EE _. split; [cbn [img_cbody]; now rewrite es_img_none by (rewrite <- EE; reflexivity)|].
        left. rewrite <- EE. repeat split.
      + exists (geo_at g (arrived g l0)). split; [reflexivity|]. split; [transitivity (enc_body g oe now est (BEntityState x)); [reflexivity|cbn [enc_body]; cbv zeta; rewrite EE'; exact B]|]. injection B as <- _ _.
        split; [|right; intros l H; injection H as <-; reflexivity]. unfold arrived, l0. destruct (enc_world g _) as [w un] eqn:EW. destruct (cmarking_new _) as [mk|]; [|discriminate]. injection EE as EE _. cbn [fst snd].
        cbn [img_cbody dec_body]. cbv zeta. rewrite (es_img g _ _ c w) by (rewrite <- EE; reflexivity). rewrite <- EE. reflexivity.
    - match type of N with narrow_fire g ?x => exists (geo_at g (arrived g (Fire_location_in_world x))) end. split; [reflexivity|]. split; [exact B|]. injection B as <- _ _. split.
      + cbn [img_cbody dec_body]. rewrite fire_img. unfold arrived, enc_fire. destruct (enc_world g _) as [w u] eqn:EW. destruct (match Fire_descriptor x with DMunition t m => _ | DExpendable t | DExplosion t _ _ => _ end) as [t [[[d1 d2] d3] d4]]. reflexivity.
      + right. intros l H. injection H as <-. reflexivity.
    - match type of N with narrow_detonation g ?x => exists (geo_at g (arrived g (Detonation_world_location x))) end. split; [reflexivity|]. split; [exact B|]. injection B as <- _ _. split.
      + cbn [img_cbody dec_body]. rewrite detonation_img. unfold arrived, enc_detonation. destruct (enc_world _ _) as [w u], (enc_ecv _) as [w' u']. destruct (Detonation_descriptor x); repeat match goal with |- context [enc_munition ?m] => destruct (enc_munition m) as [[[? ?] ?] ?] end; reflexivity.
      + right. intros l H. injection H as <-. reflexivity.
    - exists g. split; [reflexivity|]. split; [exact B|]. injection B as <- _ _. split; [reflexivity|]. right. discriminate.
    - match type of N with narrow_designator g ?x => set (x0 := x) in *; set (l0 := Designator_spot_location x0) end. cbv zeta in B. destruct (enc_designator g oe now _ _) as [c u] eqn:EE. 
      pose proof EE as EE'. unfold enc_designator in EE. cbv zeta in EE. destruct (if vec_zero _ then _ else _) as [sp eu]. destruct (partial_ok oe _ now _).
      + exists g. split; [reflexivity|]. split; [cbn [enc_body]; cbv zeta; rewrite EE'; exact B|]. injection B as <- _ _. injection EE as EE _. split; [cbn [img_cbody]; now rewrite des_img_none by (rewrite <- EE; reflexivity)|].
        left. rewrite <- EE. repeat split.
      + exists (geo_at g (arrived g l0)). split; [reflexivity|]. split; [transitivity (enc_body g oe now est (BDesignator x0)); [reflexivity|cbn [enc_body]; cbv zeta; rewrite EE'; exact B]|]. injection B as <- _ _.
        split; [|right; intros l H; injection H as <-; reflexivity]. unfold arrived, l0. destruct (enc_world g _) as [w un] eqn:EW. injection EE as EE _. cbn [fst snd].
        cbn [img_cbody dec_body]. cbv zeta. rewrite (des_img g _ c w) by (rewrite <- EE; reflexivity). rewrite <- EE. reflexivity.
    - match type of N with narrow_transmitter g ?x => set (x0 := x) in *; set (l0 := Transmitter_antenna_location x0) end. cbv zeta in B. destruct (enc_transmitter g oe now _ _) as [c u] eqn:EE. 
      pose proof EE as EE'. unfold enc_transmitter in EE. cbv zeta in EE. destruct (partial_ok oe _ now _).
      + exists g. split; [reflexivity|]. split; [cbn [enc_body]; cbv zeta; rewrite EE'; exact B|]. injection B as <- _ _. injection EE as EE _. split; [cbn [img_cbody]; now rewrite tx_img_none by (rewrite <- EE; reflexivity)|].
        left. rewrite <- EE. repeat split.
      + exists (geo_at g (arrived g l0)). split; [reflexivity|]. split; [transitivity (enc_body g oe now est (BTransmitter x0)); [reflexivity|cbn [enc_body]; cbv zeta; rewrite EE'; exact B]|]. injection B as <- _ _.
        split; [|right; intros l H; injection H as <-; reflexivity]. unfold arrived, l0. destruct (enc_world g _) as [w un] eqn:EW. destruct (enc_ecv _) as [rl eu]. injection EE as EE _. cbn [fst snd].
        cbn [img_cbody dec_body]. cbv zeta. rewrite (tx_img g _ _ c w) by (rewrite <- EE; reflexivity). rewrite <- EE. reflexivity.
    - exists g. split; [reflexivity|]. split; [exact B|]. injection B as <- _ _. split; [reflexivity|]. right. discriminate.
    - exists g. split; [reflexivity|]. split; [exact B|]. injection B as <- _ _. split; [reflexivity|]. right. discriminate. }
  destruct K as (g' & LL & EB & DB & PK). subst q. unfold decode in D. cbn [cp_body cp_header] in D. rewrite DB in D. destruct (dec_body g' od dst (cp_body c)) as [[b r1] st1] eqn:DE.
  unfold wbind in D. destruct (finalize m (dec_header (cut_header (cp_header c))) b (h_time (dec_header (cut_header (cp_header c))))) as [l1 q2|] eqn:F; [|discriminate D].
  pose proof (finalize_body _ _ _ _ _ _ F) as FB. cbn in D. injection D as L1 <- <- <-. rewrite app_nil_r in L1. subst l1.
  destruct (finalize_any _ _ (dec_header (cp_header c)) _ _ (h_time (dec_header (cp_header c))) _ _ F) as (p'' & F' & B').
  exists g', p''. split.
  { exists now, est, dst, r, est', r1, st1. split; [unfold encode in *; rewrite EB; exact E|]. unfold decode. rewrite DE. rewrite F'. reflexivity. }
  split; [congruence|]. destruct PK as [PK|PK]; [left; exact PK|right]. intros l l' PL PKl. specialize (PK l PL). subst g'.
  assert (NP : narrow_place g l).
  { destruct N as (_ & _ & _ & N). destruct (pdu_body p) as []; cbn [place_of narrow_body] in *; try discriminate; injection PL as <-; apply N. }
  destruct (place_crosses g l NP) as (_ & _ & SH). destruct NP as (NC & X1 & X2 & X3 & NP). destruct (to_lla g (loc_x l) (loc_y l) (loc_z l)) as [[lat lon] alt] eqn:LLA.
  destruct (NP lat lon alt eq_refl) as (F1 & F2 & F3 & B1 & B2 & B3). 
  destruct (PKl lat lon alt LLA NC X1 X2 X3 F1 F2 F3 ltac:(lra) ltac:(lra) ltac:(lra)) as (a1 & a2 & a3 & AE & _). cbn [to_ecef geo_at] in AE. injection AE as A1 A2 A3.
  replace l' with (arrived g l) by (destruct l', (arrived g l); cbn in *; congruence). exact SH.
Qed.

(** the decoder makes a PDU of what is read, in release mode, whatever it has seen *)
Definition Quiet {A} (w : W A) : Prop := exists a, w = WOk [] a.
Lemma quiet_bind {A B} (w : W A) (k : A -> W B) : Quiet w -> (forall a, Quiet (k a)) -> Quiet (wbind w k).
Proof. intros [a ->] K. destruct (K a) as [b E]. exists b. cbv [wbind]. rewrite E. reflexivity. Qed.
Lemma quiet_ret {A} (a : A) : Quiet (wret a). Proof. exists a. reflexivity. Qed.
Lemma quiet_arith r : Quiet (arith Wrapping r). Proof. unfold arith. destruct (_ && _); eexists; reflexivity. Qed.
Lemma quiet_add a b : Quiet (add16 Wrapping a b). Proof. apply quiet_arith. Qed.
Lemma quiet_mul a b : Quiet (mul16 Wrapping a b). Proof. apply quiet_arith. Qed.
Lemma quiet_padded a b : 0 <= a -> 0 < b -> Quiet (w_padded a b). Proof. intros. rewrite w_padded_ok by assumption. eexists. reflexivity. Qed.
Lemma quiet_sum {A} (f : A -> W Z) l : (forall a, Quiet (f a)) -> Quiet (wmap_sum Wrapping f l).
Proof. intros F. unfold wmap_sum. generalize 0. induction l as [|x l IH]; intros z; cbn [wsum]; [apply quiet_ret|]. apply quiet_bind; [apply F|intros a]. apply quiet_bind; [apply quiet_add|intros b; apply IH]. Qed.
Lemma quiet_length b : match b with BEntityState _ | BFire _ | BDetonation _ | BCollision _ | BReceiver _ | BSignal _ | BDesignator _ | BTransmitter _ => True | _ => False end -> Quiet (body_length Wrapping b).
Proof.
  assert (Z : forall (l : list Z), 0 <= zlen l) by (intros; apply zlen_nonneg).
  destruct b; cbn [body_length]; intros H; try contradiction; try (eexists; reflexivity).
  - unfold len_entity_state. apply quiet_bind; [apply quiet_mul|intros a; apply quiet_add].
  - unfold len_detonation. apply quiet_bind; [apply quiet_mul|intros a; apply quiet_add].
  - unfold len_transmitter. do 2 (apply quiet_bind; [apply quiet_add|intros]). apply quiet_bind; [|intros; apply quiet_add]. apply quiet_sum. intros v. apply quiet_bind; [|intros; apply quiet_ret].
    apply quiet_padded; [specialize (Z (vtp_fields v)); lia|lia].
  - unfold len_signal. apply quiet_bind; [apply quiet_padded; [apply Z|lia]|intros; apply quiet_add].
Qed.
Lemma narrow_encodes g o now st p : narrow_pdu g p -> exists c r st', encode g o now st p = Some (c, r, st').
Proof.
  intros (_ & _ & _ & N). unfold encode. destruct (enc_body g o now st (pdu_body p)) as [[[b r] st']|] eqn:E; [eexists; eexists; eexists; reflexivity|]. exfalso. revert E. apply enc_body_total.
  intros x E. rewrite E in N. destruct N as (_ & _ & _ & _ & L & [A _]).
  assert (AS : Forall (fun c => 0 <= c < 128) (mk_string (EntityState_marking x))) by (apply Forall_forall; intros c H; apply in_alphabet, A, H).
  rewrite lossy_ascii by exact AS. unfold cmarking_new. rewrite <- utf8_encode_len, encode_ascii by exact AS. destruct (Z.ltb_spec 11 (zlen (mk_string (EntityState_marking x)))); [lia|]. discriminate.
Qed.

(*@C52 A PDU that C-DIS has room for is never lost: whatever the encoder has seen before it gives a C-DIS PDU, its bits are read back, whatever follows them, as one C-DIS PDU, and
 a decoder (in release mode), whatever it has seen before, makes a DIS PDU of that. *)
Lemma cdis_wire_delivers_pf : forall m g oe od now est dst p, narrow_pdu g p ->
  exists c r est' q p' r' dst', encode g oe now est p = Some (c, r, est') /\ on_the_wire m c q /\ decode Wrapping g od dst q = WOk [] (p', r', dst').
Proof.
  intros m g oe od now est dst p N. destruct (narrow_encodes g oe now est p N) as (c & r & est' & E). pose proof (narrow_sendable _ _ _ _ _ _ _ _ N E) as S.
  destruct (BRT_sendable m c S) as (bs & W & _ & P). set (q := MkCPdu _ _) in P. exists c, r, est', q.
  assert (K : let '(b, _, _) := dec_body g od dst (img_cbody (cp_body c)) in Quiet (body_length Wrapping b)).
  { destruct N as (_ & _ & _ & N). unfold encode in E. destruct (enc_body g oe now est (pdu_body p)) as [[[b q'] s]|] eqn:B; [|discriminate]. injection E as <- _ _. cbn [cp_body cfinalize].
    destruct (pdu_body p) as []; cbn [narrow_body] in N; try contradiction; cbn [enc_body] in B; cbv zeta in B;
      [destruct (enc_es _ _ _ _ _) as [[c u]|]; [|discriminate]| | | |destruct (enc_designator _ _ _ _ _) as [c u]|destruct (enc_transmitter _ _ _ _ _) as [c u]| |]; injection B as <- _ _; cbn [img_cbody dec_body]; cbv zeta;
      [destruct (dec_es _ _ _ _) as [y v]| | | |destruct (dec_designator _ _ _) as [y v]|destruct (dec_transmitter _ _ _ _) as [y v]| |]; now apply quiet_length. }
  unfold decode. change (cp_body q) with (img_cbody (cp_body c)). destruct (dec_body g od dst (img_cbody (cp_body c))) as [[b r'] dst']. destruct K as [n K].
  unfold finalize, with_length. rewrite K. destruct (quiet_add 12 n) as [k A]. cbv [wbind wret]. rewrite A. do 3 eexists. split; [exact E|]. split; [exists bs; split; [exact W|exact P]|]. reflexivity.
Qed.
(*@C52 The exercise identifier and the PDU type arrive as they were. *)
Lemma cdis_wire_header_pf : forall m g oe od p c p', narrow_pdu g p -> crosses m g oe od p c p' ->
  h_exercise (pdu_header p') = h_exercise (pdu_header p) /\ h_type (pdu_header p') = h_type (pdu_header p).
Proof.
  intros m g oe od p c p' N C. destruct (crosses_translated _ _ _ _ _ _ _ N C) as (g' & p'' & _ & _ & _).
  destruct C as (now & est & dst & r & est' & q & r' & dst' & E & W & D). pose proof (narrow_sendable _ _ _ _ _ _ _ _ N E) as S. pose proof (wire_image _ _ _ S W) as ->.
  pose proof S as (_ & _ & S3 & _).
  unfold decode in D. cbn [cp_body cp_header] in D. destruct (dec_body g od dst (img_cbody (cp_body c))) as [[b r1] st1] eqn:DE.
  assert (BT : body_type b = ch_type (cp_header c)).
  { destruct N as (_ & _ & _ & N). unfold encode in E. destruct (enc_body g oe now est (pdu_body p)) as [[[b0 q'] s]|] eqn:B; [|discriminate]. injection E as <- _ _. cbn [cp_body cp_header cfinalize] in DE, S3 |- *.
    destruct (pdu_body p) as []; cbn [narrow_body] in N; try contradiction; cbn [enc_body] in B; cbv zeta in B;
      [destruct (enc_es _ _ _ _ _) as [[c u]|]; [|discriminate]| | | |destruct (enc_designator _ _ _ _ _) as [c u]|destruct (enc_transmitter _ _ _ _ _) as [c u]| |]; injection B as <- _ _; cbn [img_cbody dec_body] in DE; cbv zeta in DE;
      [destruct (dec_es _ _ _ _) as [y v]| | | |destruct (dec_designator _ _ _) as [y v]|destruct (dec_transmitter _ _ _ _) as [y v]| |]; injection DE as <- _ _; symmetry; exact S3. }
  unfold finalize, with_length in D. cbv [wbind wret] in D. destruct (body_length m b) as [l1 n|]; [|discriminate]. destruct (add16 m 12 n) as [l2 k|]; [|discriminate]. injection D as _ <- _ _.
  cbn. rewrite BT. unfold encode in E. destruct (enc_body g oe now est (pdu_body p)) as [[[b0 q'] s]|]; [|discriminate]. injection E as <- _ _. split; reflexivity.
Qed.
(*@C52 A Collision arrives as the codec alone would have it. *)
Lemma cdis_collision_crosses_pf : forall m g oe od p c p' x, narrow_pdu g p -> crosses m g oe od p c p' -> pdu_body p = BCollision x ->
  exists y, pdu_body p' = BCollision y /\ collision_kept x y.
Proof.
  intros m g oe od p c p' x N C E. destruct (crosses_translated _ _ _ _ _ _ _ N C) as (g' & p'' & T & B & _). rewrite <- B. eapply cdis_collision_content_pf; eassumption.
Qed.
(*@C52 A Fire: everything but the location as the codec alone would have it; of the location the altitude, the latitude shrunk to a seventeenth and the longitude to a ninth. *)
Lemma cdis_fire_crosses_pf : forall m g oe od p c p' x, narrow_pdu g p -> crosses m g oe od p c p' -> pdu_body p = BFire x ->
  exists y, pdu_body p' = BFire y /\ fire_kept_at (place_shrunk g) x y.
Proof.
  intros m g oe od p c p' x N C E. destruct (crosses_translated _ _ _ _ _ _ _ N C) as (g' & p'' & T & B & P). rewrite <- B.
  assert (NP : ~ partial_update (cp_body c)). { apply translated_body in T. destruct T as (? & ? & ? & ? & ? & ? & ? & EN & _). rewrite E in EN. injection EN as EN _ _. rewrite <- EN. exact (fun x => x). }
  destruct P as [P|P]; [contradiction|]. destruct N as (_ & _ & W & _). rewrite E in W, P. destruct (cdis_fire_content_pf _ _ _ _ _ _ _ _ T E) as (y & EY & K); [apply W|].
  exists y. split; [exact EY|]. unfold fire_kept, fire_kept_at in *. specialize (P _ (Fire_location_in_world y) eq_refl). tauto.
Qed.
(*@C52 A Detonation, in the same way. *)
Lemma cdis_detonation_crosses_pf : forall m g oe od p c p' x, narrow_pdu g p -> crosses m g oe od p c p' -> pdu_body p = BDetonation x ->
  exists y, pdu_body p' = BDetonation y /\ detonation_kept_at (place_shrunk g) x y.
Proof.
  intros m g oe od p c p' x N C E. destruct (crosses_translated _ _ _ _ _ _ _ N C) as (g' & p'' & T & B & P). rewrite <- B.
  assert (NP : ~ partial_update (cp_body c)). { apply translated_body in T. destruct T as (? & ? & ? & ? & ? & ? & ? & EN & _). rewrite E in EN. injection EN as EN _ _. rewrite <- EN. exact (fun x => x). }
  destruct P as [P|P]; [contradiction|]. destruct N as (_ & _ & W & _). rewrite E in W, P. destruct (cdis_detonation_content_pf _ _ _ _ _ _ _ _ T E) as (y & EY & K); [apply W|].
  exists y. split; [exact EY|]. unfold detonation_kept, detonation_kept_at in *. specialize (P _ (Detonation_world_location y) eq_refl). tauto.
Qed.
(*@C52 A Receiver arrives as the codec alone would have it. *)
Lemma cdis_receiver_crosses_pf : forall m g oe od p c p' x, narrow_pdu g p -> crosses m g oe od p c p' -> pdu_body p = BReceiver x ->
  exists y, pdu_body p' = BReceiver y /\ receiver_kept x y.
Proof.
  intros m g oe od p c p' x N C E. destruct (crosses_translated _ _ _ _ _ _ _ N C) as (g' & p'' & T & B & _). rewrite <- B. eapply cdis_receiver_content_pf; eassumption.
Qed.
(*@C52 A Signal arrives as the codec alone would have it. *)
Lemma cdis_signal_crosses_pf : forall m g oe od p c p' x, narrow_pdu g p -> crosses m g oe od p c p' -> pdu_body p = BSignal x ->
  exists y, pdu_body p' = BSignal y /\ signal_kept x y.
Proof.
  intros m g oe od p c p' x N C E. destruct (crosses_translated _ _ _ _ _ _ _ N C) as (g' & p'' & T & B & _). rewrite <- B. eapply cdis_signal_content_pf; eassumption.
Qed.
(*@C52 An Entity State, in every update: what a partial update carries, as the codec alone would have it. *)
Lemma cdis_entity_state_crosses_pf : forall m g oe od p c p' x, narrow_pdu g p -> crosses m g oe od p c p' -> pdu_body p = BEntityState x ->
  exists y, pdu_body p' = BEntityState y /\ movement_kept (o_complete oe) x y.
Proof.
  intros m g oe od p c p' x N C E. destruct (crosses_translated _ _ _ _ _ _ _ N C) as (g' & p'' & T & B & _). rewrite <- B. eapply cdis_entity_state_movement_pf; eassumption.
Qed.
Lemma full_not_partial b : full_update b -> ~ partial_update b.
Proof. unfold full_update, partial_update, present, absent. destruct b; try tauto; try (intros [F _] [P _]; congruence). Qed.
(*@C52 ... and in a full update: the marking, the type, force, orientation and appearance, and the shrunk location. *)
Lemma cdis_entity_state_full_crosses_pf : forall m g oe od p c p' x, narrow_pdu g p -> crosses m g oe od p c p' -> pdu_body p = BEntityState x -> full_update (cp_body c) ->
  exists y, pdu_body p' = BEntityState y /\ identity_kept_at (place_shrunk g) x y /\ mk_string (EntityState_marking y) = mk_string (EntityState_marking x).
Proof.
  intros m g oe od p c p' x N C E FU. destruct (crosses_translated _ _ _ _ _ _ _ N C) as (g' & p'' & T & B & P). rewrite <- B.
  destruct P as [P|P]; [now destruct (full_not_partial _ FU P)|]. rewrite E in P. destruct (cdis_entity_state_identity_pf _ _ _ _ _ _ _ _ T E FU) as (y & EY & K).
  exists y. split; [exact EY|]. split; [unfold identity_kept, identity_kept_at in *; specialize (P _ (EntityState_location y) eq_refl); tauto|].
  destruct N as (_ & _ & _ & N). rewrite E in N. destruct N as (_ & _ & _ & _ & L & [A _]).
  assert (AS : Forall (fun c => 0 <= c < 128) (mk_string (EntityState_marking x))) by (apply Forall_forall; intros d H; apply in_alphabet, A, H).
  destruct (cdis_marking_content_pf _ _ _ _ _ _ _ _ (mk_string (EntityState_marking x)) T E FU) as (z & EZ & K'); [|exact L|].
  { split; [now apply scalar_ascii|apply encode_ascii, AS]. }
  rewrite EY in EZ. injection EZ as <-. exact K'.
Qed.
(*@C52 A Designator, in every update ... *)
Lemma cdis_designator_crosses_pf : forall m g oe od p c p' x, narrow_pdu g p -> crosses m g oe od p c p' -> pdu_body p = BDesignator x ->
  exists y, pdu_body p' = BDesignator y /\ aim_kept x y.
Proof.
  intros m g oe od p c p' x N C E. destruct (crosses_translated _ _ _ _ _ _ _ N C) as (g' & p'' & T & B & _). rewrite <- B. eapply cdis_designator_aim_pf; eassumption.
Qed.
(*@C52 ... and in a full update. *)
Lemma cdis_designator_full_crosses_pf : forall m g oe od p c p' x, narrow_pdu g p -> crosses m g oe od p c p' -> pdu_body p = BDesignator x -> full_update (cp_body c) ->
  exists y, pdu_body p' = BDesignator y /\ laser_kept_at (place_shrunk g) x y.
Proof.
  intros m g oe od p c p' x N C E FU. destruct (crosses_translated _ _ _ _ _ _ _ N C) as (g' & p'' & T & B & P). rewrite <- B.
  destruct P as [P|P]; [now destruct (full_not_partial _ FU P)|]. rewrite E in P. destruct (cdis_designator_laser_pf _ _ _ _ _ _ _ _ T E FU) as (y & EY & K).
  exists y. split; [exact EY|]. unfold laser_kept, laser_kept_at in *; specialize (P _ (Designator_spot_location y) eq_refl); tauto.
Qed.
(*@C52 A Transmitter, in every update ... *)
Lemma cdis_transmitter_crosses_pf : forall m g oe od p c p' x, narrow_pdu g p -> crosses m g oe od p c p' -> pdu_body p = BTransmitter x ->
  exists y, pdu_body p' = BTransmitter y /\ transmission_kept x y.
Proof.
  intros m g oe od p c p' x N C E. destruct (crosses_translated _ _ _ _ _ _ _ N C) as (g' & p'' & T & B & _). rewrite <- B. eapply cdis_transmitter_transmission_pf; eassumption.
Qed.
(*@C52 ... and in a full update. *)
Lemma cdis_transmitter_full_crosses_pf : forall m g oe od p c p' x, narrow_pdu g p -> crosses m g oe od p c p' -> pdu_body p = BTransmitter x -> full_update (cp_body c) ->
  exists y, pdu_body p' = BTransmitter y /\ radio_kept_at (place_shrunk g) x y.
Proof.
  intros m g oe od p c p' x N C E FU. destruct (crosses_translated _ _ _ _ _ _ _ N C) as (g' & p'' & T & B & P). rewrite <- B.
  destruct P as [P|P]; [now destruct (full_not_partial _ FU P)|]. rewrite E in P. destruct (cdis_transmitter_radio_pf _ _ _ _ _ _ _ _ T E FU) as (y & EY & K).
  exists y. split; [exact EY|]. unfold radio_kept, radio_kept_at in *; specialize (P _ (Transmitter_antenna_location y) eq_refl); tauto.
Qed.

(** ** Examples and counterexamples *)
Ltac value64 := match goal with |- context [f64_value ?b] =>
  unfold f64_value; let s := eval vm_compute in (2 ^ 63 <=? b) in change (2 ^ 63 <=? b) with s; let e := eval vm_compute in (f64_exponent b) in change (f64_exponent b) with e;
  let f := eval vm_compute in (f64_fraction b) in change (f64_fraction b) with f;
  let g := eval vm_compute in (2 ^ 52 + f) in change (2 ^ 52 + f) with g; let z := eval vm_compute in (e =? 0) in change (e =? 0) with z; cbv iota;
  let k := eval vm_compute in (e - 1075) in change (e - 1075) with k; cbv beta iota delta [powerRZ]; match goal with |- context [Pos.to_nat ?p] => let n := eval vm_compute in (Pos.to_nat p) in change (Pos.to_nat p) with n | _ => idtac end; cbn [pow]; lra end.
Lemma zero64 : f64_value 0 = 0%R.
Proof. unfold f64_value. change (f64_exponent 0) with 0. change (f64_fraction 0) with 0. change (0 =? 0) with true. cbv iota. lra. Qed.
Lemma zero32 : f32_value 0 = 0%R.
Proof. unfold f32_value. change (f32_exponent 0) with 0. change (f32_fraction 0) with 0. change (0 =? 0) with true. cbv iota. lra. Qed.
Lemma one64 : f64_value 4607182418800017408 = 1%R. Proof. value64. Qed.
Lemma one32 : f32_value 1065353216 = 1%R. Proof. value. Qed.
Lemma two32 : f32_value 1073741824 = 2%R. Proof. value. Qed.
Ltac fin32 := split; [lia|vm_compute; discriminate].
Lemma one_place : narrow_place plain_geo one_loc.
Proof.
  unfold narrow_place, one_loc, centre, plain_geo. cbn [loc_x loc_y loc_z to_lla]. rewrite one64, zero64. split; [lra|]. do 3 (split; [split; [lia|vm_compute; discriminate]|]).
  intros lat lon alt H. injection H as <- <- <-. do 3 (split; [split; [lia|vm_compute; discriminate]|]). rewrite one64, zero64. lra.
Qed.
Lemma one_acceleration : narrow_acceleration one_vec.
Proof. unfold narrow_acceleration, all_finite, one_vec. cbn [v_1 v_2 v_3]. split; [repeat split; try lia; vm_compute; discriminate|]. intros b [<-|[<-|[<-|[]]]]; rewrite ?one32, ?two32, ?zero32; lra. Qed.
Definition sent_id : EntityId := MkEntityId (MkSimulationAddress 1 2) 3.
Definition other_id : EntityId := MkEntityId (MkSimulationAddress 1 2) 4.
Definition tank : EntityType := MkEntityType 1 2 225 1 2 3 4.
Definition sent_fire (rate : Z) : PduBody :=
  BFire (MkFire sent_id other_id zero_id (MkEventId (MkSimulationAddress 1 2) 9) 4 one_loc (DMunition (MkEntityType 2 2 225 1 2 3 4) (MkMunitionDescriptor 1000 100 1 rate)) one_vec 1065353216).
Definition sent_spot (algorithm : Z) : PduBody := BDesignator (MkDesignator sent_id 4 other_id 5 1065353216 1065353216 one_vec one_loc algorithm one_vec).
Definition sent_radio (vtps : list VTP) : PduBody :=
  BTransmitter (MkTransmitter sent_id 1 (MkEntityType 7 0 225 0 0 0 0) 2 3 one_loc one_vec 1 243000000 1065353216 1065353216 (MkModulationType (MkSpread true false false) (MMDetail 2 3) 4) 1
     (MkCryptoKeyId 77 true) (Some [1; 2; 3; 4]) (Some (MkBAP (MkOrientation 1065353216 0 0) 1065353216 0 1 0 0 0)) vtps).
Definition crossing : list PduBody :=
  [BEntityState (MkEntityState sent_id 1 tank zero_type one_vec one_loc (MkOrientation 1065353216 0 1065353216) (appearance_from_bytes 77 tank)
     (MkDr 4 (DrEuler 0 0 1065353216) one_vec one_vec) (MkMarking 1 [86; 73; 80; 69; 82; 32; 49]) (capabilities_from_bytes 3 1 2)
     [VPArticulated (MkArticulatedPart 1 2 11 4096 1065353216)]);
   sent_fire 2; sent_spot 4; sent_radio [MkVTP 7 [1; 2; 3]];
   BDetonation (MkDetonation sent_id other_id zero_id zero_event one_vec one_loc (DExplosion (MkEntityType 3 2 225 0 0 0 0) 5 1065353216) one_vec 5 []);
   BCollision (MkCollision sent_id other_id zero_event 1 one_vec 1065353216 one_vec);
   BReceiver (MkReceiver sent_id 1 2 1065353216 other_id 3);
   BSignal (MkSignal sent_id 1 (EsEncodedAudio 0 1) 0 8000 4 [1; 2; 3; 4])].
Definition on_its_way (b : PduBody) : Pdu := MkPdu (header_new 7 3 (body_type b)) b.
Lemma narrow_way b : wf_body b -> narrow_body plain_geo b -> narrow_pdu plain_geo (on_its_way b).
Proof. intros W N. split; [unfold u8; cbn; lia|]. split; [reflexivity|]. split; assumption. Qed.
Ltac in_list := repeat match goal with |- In _ _ => first [left; reflexivity|right] end.
Lemma crossing_narrow : Forall (narrow_body plain_geo) crossing.
Proof.
  unfold crossing. repeat apply Forall_cons; [..|apply Forall_nil]; unfold sent_fire, sent_spot, sent_radio; cbn [narrow_body].
  - split.
    + unfold narrow_movement. cbv zeta. es_proj. split; [lia|]. split; [intros _; apply one_acceleration|]. split.
      { intros _. unfold narrow_turning, all_finite, one_vec. cbn [v_1 v_2 v_3]. split; [repeat split; try lia; vm_compute; discriminate|]. intros b [<-|[<-|[<-|[]]]]; rewrite ?one32, ?two32, ?zero32; lra. }
      split; [repeat split; cbn; lia|]. split; [|reflexivity]. constructor; [|constructor]. cbn [narrow_parameter ap_change ap_attachment ap_metric ap_class ap_value].
      split; [lia|]. split; [lia|]. split; [reflexivity|]. split; [lia|]. split; [fin32|]. rewrite one32. lra.
    + unfold narrow_identity. es_proj. split; [repeat split; cbn; lia|]. split; [apply one_place|]. split; [unfold narrow_orientation; cbn [or_psi or_theta or_phi]; repeat split; try lia; vm_compute; discriminate|].
      cbn [mk_string]. split; [vm_compute; discriminate|]. split.
      { intros c H. unfold letters, digits, signs. repeat (destruct H as [<-|H]; [in_list|]). destruct H. }
      { intros H. exists 32. split; in_list. }
  - split; [apply one_place|]. split; [repeat split; cbn; lia|]. cbn. lia.
  - split; [now left|]. split; [apply one_acceleration|]. split; [|apply one_place]. split; [discriminate|]. intros H. exfalso. specialize (H 1065353216 (or_introl eq_refl)). lia.
  - unfold narrow_transmitter. cbn [Transmitter_transmit_state Transmitter_crypto_system Transmitter_crypto_key_id Transmitter_modulation_parameters Transmitter_antenna_pattern Transmitter_antenna_pattern_type
      Transmitter_vtps Transmitter_radio_type Transmitter_antenna_location Transmitter_frequency Transmitter_bandwidth Transmitter_modulation_type ck_key].
    split; [lia|]. split; [lia|]. split; [lia|]. split; [intros l H; injection H as <-; reflexivity|]. split.
    { intros a H. injection H as <-. split; [|lia]. unfold narrow_pattern, half_turn. cbn [bap_direction bap_azimuth bap_elevation bap_reference bap_phase or_psi or_theta or_phi]. split; [|lia].
      intros b H. repeat (destruct H as [<-|H]; [split; [fin32|rewrite ?one32, ?zero32; lra]|]). destruct H. }
    split; [discriminate|]. split; [reflexivity|]. split; [constructor; [vm_compute; reflexivity|constructor]|]. split; [repeat split; cbn; lia|]. split; [apply one_place|]. split; [lia|]. split; [fin32|].
    split; [rewrite one32; lra|]. unfold narrow_radio_modulation. cbn [mt_system mt_major]. lia.
  - split; [apply one_place|]. split; [split; [repeat split; cbn; lia|]; split; [fin32|rewrite one32; lra]|]. split; [constructor|reflexivity].
  - reflexivity.
  - unfold narrow_receiver. cbn [Receiver_receiver_state Receiver_received_power]. split; [lia|]. split; [fin32|]. rewrite one32. lra.
  - unfold narrow_signal. cbn [Signal_tdl_type Signal_data Signal_encoding_scheme]. split; [lia|]. split; [vm_compute; discriminate|]. lia.
Qed.
Lemma crossing_wf : Forall wf_body crossing.
Proof.
  unfold crossing. repeat apply Forall_cons; [..|apply Forall_nil]; unfold sent_fire, sent_spot, sent_radio; cbn [wf_body]; repeat split; try lia; try (cbn; lia).
  all: cbn [EntityState_marking mk_string EntityState_variable_parameters Transmitter_modulation_parameters wf_option Transmitter_vtps Detonation_variable_parameters Signal_data].
  all: unfold bytes; repeat constructor; try lia; cbn; lia.
Qed.
(*@ex*)
Example crossing_example : Forall (fun b => narrow_pdu plain_geo (on_its_way b) /\ exists c p', crosses Wrapping plain_geo new_full_update new_partial_update (on_its_way b) c p') crossing.
Proof.
  pose proof crossing_wf as W. pose proof crossing_narrow as N. rewrite Forall_forall in *. intros b I. pose proof (narrow_way b (W b I) (N b I)) as K. split; [exact K|].
  destruct (cdis_wire_delivers_pf Wrapping plain_geo new_full_update new_partial_update 0 enc_state_new dec_state_new _ K) as (c & r & e & q & p' & r' & d & E & O & D). exists c, p', 0, enc_state_new, dec_state_new, r, e, q, r', d. auto.
Qed.

Definition broken (b : PduBody) : bool :=
  match encode plain_geo new_full_update 0 enc_state_new (on_its_way b) with
  | Some (c, _, _) =>
      match w_cpdu Wrapping c, w_cpdu Checked c with
      | WOk bs _, WOk bs' _ => match p_cpdu bs, p_cpdu bs' with POk [] _, _ | _, POk [] _ => false | _, _ => true end
      | _, _ => false
      end
  | None => false
  end.
Lemma broken_spec b : broken b = true -> exists c r st', encode plain_geo new_full_update 0 enc_state_new (on_its_way b) = Some (c, r, st') /\ forall m, ~ exists q, on_the_wire m c q.
Proof.
  unfold broken. destruct (encode _ _ _ _ _) as [[[c r] st']|]; [|discriminate]. intros H. exists c, r, st'. split; [reflexivity|]. intros m (q & bs & W & P). specialize (P []). rewrite app_nil_r in P.
  destruct m.
  - destruct (w_cpdu Wrapping c) as [bs0 u|]; [|discriminate]. rewrite W in H. rewrite P in H. destruct (p_cpdu bs0) as [[|] ?| |]; discriminate.
  - rewrite W in H. rewrite P in H. destruct (w_cpdu Checked c); discriminate.
Qed.
Lemma nth_way n b : nth n crossing b <> b -> narrow_pdu plain_geo (on_its_way (nth n crossing b)).
Proof.
  intros D. assert (I : In (nth n crossing b) crossing) by (destruct (Nat.lt_ge_cases n (length crossing)) as [L|L]; [now apply nth_In|now rewrite nth_overflow in D by exact L]).
  pose proof crossing_wf as W. pose proof crossing_narrow as N. rewrite Forall_forall in W, N. apply narrow_way; auto.
Qed.
(*@C52 A Fire with a quantity but no rate of fire is not carried: C-DIS has one flag for both, the writer writes the quantity anyway, and the reader takes it for the following field. *)
Lemma cdis_fire_crosses_refuted_pf : narrow_pdu plain_geo (on_its_way (sent_fire 2)) /\
  exists c r st', encode plain_geo new_full_update 0 enc_state_new (on_its_way (sent_fire 0)) = Some (c, r, st') /\ forall m, ~ exists q, on_the_wire m c q.
Proof. split; [apply (nth_way 1 (BOther (MkOther None None []))); discriminate|]. apply broken_spec. vm_compute. reflexivity. Qed.
(*@C52 A Designator whose dead reckoning algorithm has no acceleration (2, for example) is not carried, for the same reason. *)
Lemma cdis_designator_crosses_refuted_pf : narrow_pdu plain_geo (on_its_way (sent_spot 4)) /\
  exists c r st', encode plain_geo new_full_update 0 enc_state_new (on_its_way (sent_spot 2)) = Some (c, r, st') /\ forall m, ~ exists q, on_the_wire m c q.
Proof. split; [apply (nth_way 2 (BOther (MkOther None None []))); discriminate|]. apply broken_spec. vm_compute. reflexivity. Qed.
(*@C52 A Transmitter without variable transmitter parameters is not carried: the reader expects their number. *)
Lemma cdis_transmitter_crosses_refuted_pf : narrow_pdu plain_geo (on_its_way (sent_radio [MkVTP 7 [1; 2; 3]])) /\
  exists c r st', encode plain_geo new_full_update 0 enc_state_new (on_its_way (sent_radio [])) = Some (c, r, st') /\ forall m, ~ exists q, on_the_wire m c q.
Proof. split; [apply (nth_way 3 (BOther (MkOther None None []))); discriminate|]. apply broken_spec. vm_compute. reflexivity. Qed.
(*@C52 No place but one on the equator and on the first meridian arrives where it was: the latitude the decoder uses is off by at least 94 hundredths of the latitude sent,
 and the longitude by 88 hundredths of the longitude. *)
Lemma cdis_place_crosses_refuted_pf : forall m g oe od p c p' x lat lon alt, narrow_pdu g p -> crosses m g oe od p c p' -> pdu_body p = BFire x ->
  to_lla g (loc_x (Fire_location_in_world x)) (loc_y (Fire_location_in_world x)) (loc_z (Fire_location_in_world x)) = (lat, lon, alt) ->
  exists y lat' lon' alt', pdu_body p' = BFire y /\
    to_ecef g lat' lon' alt' = (loc_x (Fire_location_in_world y), loc_y (Fire_location_in_world y), loc_z (Fire_location_in_world y)) /\
    (0.94 * Rabs (f64_value lat) - 0.000000001 <= Rabs (f64_value lat' - f64_value lat))%R /\ (0.88 * Rabs (f64_value lon) - 0.000000001 <= Rabs (f64_value lon' - f64_value lon))%R.
Proof.
  intros m g oe od p c p' x lat lon alt N C E L. destruct (cdis_fire_crosses_pf _ _ _ _ _ _ _ _ N C E) as (y & EY & K). destruct K as (_ & _ & _ & _ & _ & K & _).
  destruct (K lat lon alt L) as (lat' & lon' & alt' & EC & _ & _ & _ & A & B & _). exists y, lat', lon', alt'. split; [exact EY|]. split; [exact EC|]. unfold within in *.
  assert (G : forall v v' s e, (Rabs (v' - v * s) <= 0.0000001 * Rabs v + 0.000000001 -> 0 <= s -> e + s + 0.0000001 <= 1 -> e * Rabs v - 0.000000001 <= Rabs (v' - v))%R).
  { clear. intros v v' s e H S I. assert (T : (Rabs (v' - v) >= Rabs (v - v * s) - Rabs (v' - v * s))%R).
    { replace (v - v * s)%R with (- (v' - v) + (v' - v * s))%R by ring. pose proof (Rabs_triang (- (v' - v)) (v' - v * s)) as TR. rewrite Rabs_Ropp in TR. lra. }
    replace (v - v * s)%R with (v * (1 - s))%R in T by ring. rewrite Rabs_mult in T. pose proof (Rabs_pos v) as PV. pose proof (Rle_abs (1 - s)) as P1. nra. }
  split; [apply (G (f64_value lat) (f64_value lat') lat_shrink 0.94%R A)|apply (G (f64_value lon) (f64_value lon') lon_shrink 0.88%R B)]; unfold lat_shrink, lon_shrink; lra.
Qed.

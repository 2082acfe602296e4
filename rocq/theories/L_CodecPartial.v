(** * C31, C47: partial Electromagnetic Emission updates *)
From Coq Require Import ZArith List Lia Bool SpecFloat Reals Lra.
From Flocq Require Import Core BinarySingleNaN.
From Verif Require Import Base CdisBase DisCommon DisHeader DisLists DisSimman DisLogistics DisWarfare DisEntity DisEmission DisRadio DisIff DisPdu DisPacket
  CdisRecords CdisBodies1 CdisBodies2 CdisIff CdisPdu CdisCodec1 CdisCodec2 CdisCodec3 SpecFloatValue SpecContent SpecBody SpecCodec FloatReal FloatBits L_Codec L_CodecDec L_CodecNum L_CodecContent.
Import ListNotations. Open Scope Z_scope.

(** ** Indices *)
Lemma find_index_in {A} (key : A -> list Z) (inj : forall a b, key a = key b -> a = b) x l : forall i k, find_index key x l i = Some k -> In x l.
Proof.
  induction l as [|y l IH]; intros i k H; cbn [find_index] in H; [discriminate|]. destruct (key_eq (key y) (key x)) eqn:K; [|right; eapply IH; exact H].
  apply key_eq_spec, inj in K. subst. now left.
Qed.
Lemma indexed {A B} (key : A -> list Z) (inj : forall a b, key a = key b -> a = b) (f : B -> A) (l ls : list B) y k :
  find_index key y (sort_dedup key (map f l)) 0 = Some k -> incl l ls -> zlen ls <= 256 -> nth_error (sort_dedup key (map f l)) (Z.to_nat (as_u8 k)) = Some y.
Proof.
  intros E C L. pose proof (find_index_in key inj _ _ _ _ E) as I. apply sort_dedup_in, in_map_iff in I; [|exact inj]. destruct I as (b & <- & I).
  pose proof (found key inj f l ls b I C L) as F. cbv zeta in F. rewrite E in F. exact F.
Qed.
Definition changes_p (e : EncEE) (p : Z * Beam) : bool := match ee_params e (fst p) (be_number (snd p)) with Some d => negb (fpd_eq d (be_parameters (snd p))) | None => false end.
Definition changes_b (e : EncEE) (p : Z * Beam) : bool := match ee_beams e (fst p) (be_number (snd p)) with Some d => negb (bd_eq d (be_data (snd p))) | None => false end.
Lemma changed_params_eq e x : changed_params e x = sort_dedup cfp_key (map enc_fp (map (fun p => be_parameters (snd p)) (filter (changes_p e) (beams_of x)))).
Proof. unfold changed_params. now rewrite map_map. Qed.
Lemma changed_beams_eq e x : changed_beams e x = sort_dedup cbd_key (map enc_beam (map (fun p => be_data (snd p)) (filter (changes_b e) (beams_of x)))).
Proof. unfold changed_beams. now rewrite map_map. Qed.
Lemma params_incl e x lp : (forall d, (exists b, beam_in x b /\ d = be_parameters b) -> In d lp) -> incl (map (fun p => be_parameters (snd p)) (filter (changes_p e) (beams_of x))) lp.
Proof. intros C d H. apply in_map_iff in H. destruct H as (q & <- & Q). apply filter_In in Q. apply C. exists (snd q). split; [now apply beams_of_in|reflexivity]. Qed.
Lemma data_incl e x lp : (forall d, (exists b, beam_in x b /\ d = be_data b) -> In d lp) -> incl (map (fun p => be_data (snd p)) (filter (changes_b e) (beams_of x))) lp.
Proof. intros C d H. apply in_map_iff in H. destruct H as (q & <- & Q). apply filter_In in Q. apply C. exists (snd q). split; [now apply beams_of_in|reflexivity]. Qed.

(** ** Every beam of a partial update *)
Lemma tracks_back x s b : at_most 256 (fun a => exists b t, beam_in x b /\ In t (be_tracks b) /\ a = ei_addr (tj_entity t)) -> In s (EE_systems x) -> In b (es_beams s) ->
  map (dec_tj (site_pairs x)) (map (enc_tj false (site_pairs x)) (be_tracks b)) = map (fun t => MkTrackJam (tj_entity t) 0 0) (be_tracks b).
Proof.
  intros (lt & Lt & Ct) S B. pose proof (in_beams_of x s b S B) as I. rewrite map_map. apply map_ext_in. intros t TI.
  unfold dec_tj, enc_tj. cbn [ctj_index ctj_entity ctj_emitter ctj_beam unopt].
  assert (E : site_pairs x = sort_dedup csa_key (map pair_of (map (fun t => ei_addr (tj_entity t)) (flat_map (fun p => be_tracks (snd p)) (beams_of x))))) by (unfold site_pairs; now rewrite map_map, <- flat_map_map). rewrite E.
  pose proof (found csa_key csa_key_inj pair_of (map (fun t => ei_addr (tj_entity t)) (flat_map (fun p => be_tracks (snd p)) (beams_of x))) lt (ei_addr (tj_entity t))) as F. cbv zeta in F.
  rewrite F.
  - cbn. destruct t as [[[? ?] ?] ? ?]. reflexivity.
  - apply in_map_iff. exists t. split; [reflexivity|]. apply in_flat_map. exists (es_number s, b). auto.
  - intros d HD. apply in_map_iff in HD. destruct HD as (q & <- & Q). apply in_flat_map in Q. destruct Q as (w & W & Q). apply Ct. exists (snd w), q. split; [now apply beams_of_in|auto].
  - exact Lt.
Qed.
Lemma enc_ee_partial o now st x c u : enc_ee o now st x = (c, u) -> partial_update (CBEmission c) -> exists e, st = Some e /\ o_partial o = true /\
  c = MkCEmission false (enc_eid (EE_emitting_entity_id x)) (enc_event (EE_event_id x)) (EE_state_update x) (changed_params e x) (changed_beams e x) (site_pairs x)
        (map (enc_esys false (changed_params e x) (changed_beams e x) (site_pairs x)) (EE_systems x)).
Proof.
  unfold enc_ee. cbv zeta. intros EN [PU _]. destruct (partial_ok o _ now _) eqn:P.
  - destruct st as [e|]; [|injection EN as EN _; rewrite <- EN in PU; discriminate PU]. exists e. injection EN as <- _. split; [reflexivity|]. split; [|reflexivity].
    unfold partial_ok in P. destruct (o_partial o); [reflexivity|discriminate].
  - injection EN as EN _. rewrite <- EN in PU. discriminate PU.
Qed.
(*@C47 An Electromagnetic Emission in a partial update: the event, every system number and every beam with its number, index, function and status arrive, and of each of up to
 15 targets the entity; but the jamming technique of a beam, and the emitter and beam number of a target, arrive as zero. *)
Lemma cdis_partial_emission_content_pf : forall m g oe od p c p' x, translated m g oe od p c p' -> pdu_body p = BElectromagneticEmission x -> partial_update (cp_body c) ->
  at_most 256 (fun a => exists b t, beam_in x b /\ In t (be_tracks b) /\ a = ei_addr (tj_entity t)) ->
  exists y, pdu_body p' = BElectromagneticEmission y /\ emissions_reduced x y.
Proof.
  intros m g oe od p c p' x T E PU C. opened T E EN DE. destruct (enc_ee oe now _ x) as [ce u] eqn:EE. injection EN as EN _ _. rewrite <- EN in PU, DE.
  destruct (enc_ee_partial _ _ _ _ _ _ EE PU) as (e & _ & _ & ->). apply dec_body_ee in DE. destruct DE as [st ->]. eexists. split; [reflexivity|].
  unfold emissions_reduced, dec_ee. cbv zeta. cbn [fst CEmission_full CEmission_id CEmission_event CEmission_sui CEmission_params CEmission_beams CEmission_sites CEmission_systems
      EE_emitting_entity_id EE_event_id EE_state_update EE_systems negb]. rewrite eid_back, event_back. do 3 (split; [reflexivity|]).
  rewrite map_map. apply Forall2_map_in. intros s S. unfold dec_esys, enc_esys. cbn [cesy_name cesy_function cesy_number cesy_location cesy_beams].
  destruct (unopt (0, 0, zero_vec) _) as [[n0 f0] l0]. cbn [es_number es_beams]. split; [reflexivity|]. rewrite map_map. apply Forall2_map_in. intros b B.
  unfold ebeam_reduced, tracks_reduced, dec_eb, enc_eb. cbv zeta.
  cbn [ceb_id ceb_param ceb_fp_index ceb_bd_index ceb_function ceb_density ceb_status ceb_kind ceb_category ceb_subcategory ceb_specific ceb_tracks
       be_number be_index be_parameters be_data be_function be_high_density be_status be_technique be_tracks unopt].
  do 3 (split; [reflexivity|]). split; [destruct (be_status b =? 0); reflexivity|]. split; [reflexivity|].
  destruct (Z.leb_spec (zlen (be_tracks b)) 15) as [T|T]; destruct (Z.ltb_spec 15 (zlen (be_tracks b))); try lia; [|split; reflexivity].
  split; [|reflexivity]. now apply tracks_back with (s := s).
Qed.

(** ** What the encoder remembers *)
Definition ee_inv (o : Options) (st : EncState) (h : Sent) : Prop :=
  o_partial o = true -> forall id e, en_ee st id = Some e -> exists t q f, last_sent_full (SuEmission id) h t q /\ pdu_body q = BElectromagneticEmission f /\ e = upd_enc_ee t f.
Lemma ee_other g o now st b c r st' : enc_body g o now st b = Some (c, r, st') -> (forall x, b <> BElectromagneticEmission x) -> en_ee st' = en_ee st.
Proof.
  intros H N. destruct b; cbn [enc_body] in H; try (injection H as _ _ <-; reflexivity).
  - unfold enc_es in H. destruct (partial_ok _ _ _ _); [injection H as _ _ <-; reflexivity|]. destruct (enc_world _ _). destruct (cmarking_new _); [|discriminate]. injection H as _ _ <-. now destruct (o_partial o).
  - destruct (N _ eq_refl).
  - destruct (enc_designator _ _ _ _ _) as [? u]. injection H as _ _ <-. now destruct u.
  - destruct (enc_transmitter _ _ _ _ _) as [? u]. injection H as _ _ <-. now destruct u.
  - destruct (enc_iff _ _ _ _) as [? u]. injection H as _ _ <-. now destruct u.
Qed.
Lemma ee_step g o h st i c st' : ee_inv o st h -> encode_step g o st i = Some (c, st') -> ee_inv o st' (h ++ [(i, c)]).
Proof.
  destruct i as [now p]. intros Hi He Hp id e Hs. apply encode_step_some in He. destruct He as [r He].
  assert (K : en_ee st id = Some e -> ~ full_sent (SuEmission id) (now, p, c) ->
    exists t q f, last_sent_full (SuEmission id) (h ++ [(now, p, c)]) t q /\ pdu_body q = BElectromagneticEmission f /\ e = upd_enc_ee t f).
  { intros H1 H2. destruct (Hi Hp id e H1) as (t & q & f & A & B & D). exists t, q, f. split; [now apply last_snoc_other|auto]. }
  destruct (pdu_body p) as [] eqn:Eb.
  all: try (rewrite (ee_other _ _ _ _ _ _ _ _ He) in Hs by (intros; discriminate); apply K; [exact Hs|]; intros [F _]; cbn [fst snd] in F; rewrite Eb in F; discriminate F).
  rename e0 into x || idtac. cbn [enc_body] in He. destruct (enc_ee o now _ _) as [ce u] eqn:EE. injection He as Ec _ Es. unfold enc_ee in EE. cbv zeta in EE.
  match type of EE with context [if ?b then _ else _] => destruct b eqn:P end.
  - match type of EE with (match ?s with _ => _ end) = _ => destruct s as [e1|] eqn:Q end; [|unfold partial_ok in P; cbn in P; rewrite andb_false_r in P; discriminate P].
    injection EE as EE EU. subst u. rewrite <- Es in Hs. apply K; [exact Hs|]. intros [_ F]. cbn [snd] in F. rewrite <- Ec, <- EE in F. destruct F as [F _]. discriminate F.
  - injection EE as EE EU. rewrite Hp in EU. subst u. rewrite <- Es in Hs. cbn [en_ee] in Hs. unfold put_at in Hs.
    match type of Hs with context [if eid_eqb ?a ?b then _ else _] => destruct (eid_eqb a b) eqn:Q end.
    + apply eid_eqb_eq in Q. injection Hs as <-. do 3 eexists. split; [|split; [exact Eb|reflexivity]]. apply last_snoc_same. split; cbn [fst snd]; [rewrite Eb; cbn [subject]; now rewrite Q|].
      rewrite <- Ec, <- EE. split; [reflexivity|]. apply Forall_map_all. intros. apply enc_esys_full.
    + apply K; [exact Hs|]. intros [F _]. cbn [fst snd] in F. rewrite Eb in F. cbn [subject] in F. injection F as F. rewrite F, eid_eqb_refl in Q. discriminate Q.
Qed.
Lemma ee_run g o l os st : encode_all g o l = Some (os, st) -> ee_inv o st (combine l os).
Proof. intros H. revert l os st H. apply run_ind; [intros _ id e H; discriminate H|intros; eapply ee_step; eassumption]. Qed.

Lemma fpd_changed d e : parameters_changed d e -> fpd_eq d e = false.
Proof. unfold parameters_changed, differ, fpd_eq, f32_eq. intros [H|[H|[H|[H|H]]]]; rewrite H; rewrite ?andb_false_r; reflexivity. Qed.
Lemma bd_changed d e : shape_changed d e -> bd_eq d e = false.
Proof. unfold shape_changed, differ, bd_eq, f32_eq. intros [H|[H|[H|[H|H]]]]; rewrite H; rewrite ?andb_false_r; reflexivity. Qed.

(** the beam decoded, from the state *)
Lemma partial_parameters x e u st s b : countable x -> In s (EE_systems x) -> In b (es_beams s) ->
  let ps := changed_params e x in let bs := changed_beams e x in let si := site_pairs x in
  let d := dec_eb u st (es_number s) ps bs si (enc_eb false ps bs si b) in
  (emission_kept (be_parameters b) (be_parameters d) \/
   (changes_p e (es_number s, b) = false /\ be_parameters d = unopt zero_fpd (if u then match st with Some z => de_params z (es_number s) (be_number b) | None => None end else None))) /\
  (beam_kept (be_data b) (be_data d) \/
   (changes_b e (es_number s, b) = false /\ be_data d = unopt zero_bd (if u then match st with Some z => de_beams z (es_number s) (be_number b) | None => None end else None))).
Proof.
  intros ((lp & Lp & Cp) & (lb & Lb & Cb) & _) S B ps bs si d. pose proof (in_beams_of x s b S B) as I. subst d. unfold dec_eb, enc_eb. cbv zeta.
  cbn [ceb_id ceb_fp_index ceb_bd_index be_parameters be_data]. split.
  - destruct (find_index cfp_key (enc_fp (be_parameters b)) ps 0) as [k|] eqn:K; cbn [option_map].
    + left. subst ps. rewrite changed_params_eq in *. rewrite (nth_of_error _ _ zero_cfp _ (indexed cfp_key cfp_key_inj _ _ lp _ _ K (params_incl _ _ _ Cp) Lp)). apply emission_back.
    + right. split; [|reflexivity]. destruct (changes_p e (es_number s, b)) eqn:Q; [exfalso|reflexivity].
      assert (M : In (enc_fp (be_parameters b)) ps).
      { subst ps. rewrite changed_params_eq. apply sort_dedup_in; [exact cfp_key_inj|]. apply in_map. apply in_map_iff. exists (es_number s, b). split; [reflexivity|]. apply filter_In. auto. }
      destruct (find_in cfp_key cfp_key_inj _ _ M 0) as (k & Ek & _). congruence.
  - destruct (find_index cbd_key (enc_beam (be_data b)) bs 0) as [k|] eqn:K; cbn [option_map].
    + left. subst bs. rewrite changed_beams_eq in *. rewrite (nth_of_error _ _ zero_cbd _ (indexed cbd_key cbd_key_inj _ _ lb _ _ K (data_incl _ _ _ Cb) Lb)). apply beam_back.
    + right. split; [|reflexivity]. destruct (changes_b e (es_number s, b)) eqn:Q; [exfalso|reflexivity].
      assert (M : In (enc_beam (be_data b)) bs).
      { subst bs. rewrite changed_beams_eq. apply sort_dedup_in; [exact cbd_key_inj|]. apply in_map. apply in_map_iff. exists (es_number s, b). split; [reflexivity|]. apply filter_In. auto. }
      destruct (find_in cbd_key cbd_key_inj _ _ M 0) as (k & Ek & _). congruence.
Qed.
Lemma changes_known t f n b b0 : the_beam f n (be_number b) b0 ->
  changes_p (upd_enc_ee t f) (n, b) = negb (fpd_eq (be_parameters b0) (be_parameters b)) /\ changes_b (upd_enc_ee t f) (n, b) = negb (bd_eq (be_data b0) (be_data b)).
Proof. intros H. apply beam_at_spec in H. unfold changes_p, changes_b, upd_enc_ee. cbn [ee_params ee_beams fst snd]. rewrite H. cbn. auto. Qed.
(*@C31 What changed is sent again: in every history of an encoder, in a partial Emission update each beam whose parameters (or shape) are not those it had in the last full update of
 this emitter arrives with its parameters (its shape), in every decoder, whatever that received before. *)
Lemma cdis_changed_beam_arrives_pf : forall g o l outs st h1 now p c h2 x t0 p0 f m od dst p' r dst',
  encode_all g o l = Some (outs, st) -> combine l outs = h1 ++ (now, p, c) :: h2 -> pdu_body p = BElectromagneticEmission x -> partial_update (cp_body c) -> countable x ->
  last_sent_full (SuEmission (EE_emitting_entity_id x)) h1 t0 p0 -> pdu_body p0 = BElectromagneticEmission f -> decode m g od dst c = WOk [] (p', r, dst') ->
  exists y, pdu_body p' = BElectromagneticEmission y /\
    beamwise (fun n b b' => forall b0, the_beam f n (be_number b) b0 ->
      (parameters_changed (be_parameters b0) (be_parameters b) -> emission_kept (be_parameters b) (be_parameters b')) /\
      (shape_changed (be_data b0) (be_data b) -> beam_kept (be_data b) (be_data b'))) x y.
Proof.
  intros g o l outs st h1 now p c h2 x t0 p0 f m od dst p' r dst' R H E PU C L F D.
  destruct (run_split _ _ _ _ _ _ _ _ _ R H) as (s1 & s2 & R1 & R2). pose proof (ee_run g o _ _ _ R1) as Hi. rewrite combine_map_id in Hi.
  unfold encode_step in R2. cbn [fst snd] in R2. destruct (encode g o now s1 p) as [[[c' r0] s2']|] eqn:EN; [|discriminate]. injection R2 as <- <-.
  assert (T : translated m g o od p c' p') by (exists now, s1, dst, r0, s2', r, dst'; auto). apply translated_body in T. clear D. 
  unfold encode in EN. rewrite E in EN. cbn [enc_body] in EN. destruct (enc_ee o now _ x) as [ce u] eqn:EE. injection EN as EN _ _. rewrite <- EN in PU, T. cbn [cfinalize cp_body] in PU, T.
  destruct (enc_ee_partial _ _ _ _ _ _ EE PU) as (e & Es & Hp & ->). destruct (Hi Hp _ _ Es) as (t & q & f' & L' & F' & ->).
  destruct (last_full_unique _ _ _ _ _ _ L L') as [-> ->]. rewrite F in F'. injection F' as <-.
  destruct T as (now' & est & dst0 & r1 & est' & r' & dst1 & _ & DE). apply dec_body_ee in DE. destruct DE as [ds ->]. eexists. split; [reflexivity|].
  unfold beamwise, dec_ee. cbv zeta. cbn [fst CEmission_full CEmission_params CEmission_beams CEmission_sites CEmission_systems EE_systems].
  rewrite map_map. apply Forall2_map_in. intros s S. unfold dec_esys, enc_esys. cbn [cesy_name cesy_function cesy_number cesy_location cesy_beams].
  destruct (unopt (0, 0, zero_vec) _) as [[n0 f0] l0]. cbn [es_number es_beams]. rewrite map_map. apply Forall2_map_in. intros b B b0 B0.
  destruct (changes_known t f (es_number s) b b0 B0) as [K1 K2].
  destruct (partial_parameters x (upd_enc_ee t f) (o_partial od && negb false) ds s b C S B) as [[P|[P _]] [Q|[Q _]]]; rewrite ?K1, ?K2 in *;
    (split; [intros X; try exact P; apply fpd_changed in X; rewrite X in P; discriminate P|intros X; try exact Q; apply bd_changed in X; rewrite X in Q; discriminate Q]).
Qed.

(** ** Unchanged parameters, from the sender's last full update *)
Lemma eqb_R prec emax x y : fin prec emax x -> fin prec emax y -> SFeqb x y = Req_bool (SF2R radix2 x) (SF2R radix2 y).
Proof.
  intros [Vx Fx] [Vy Fy]. pose proof (Beqb_correct prec emax (SF2B x Vx) (SF2B y Vy)) as C. rewrite !is_finite_SF2B, !B2R_SF2B in C. specialize (C Fx Fy).
  unfold Beqb in C. rewrite !B2SF_SF2B in C. exact C.
Qed.
Lemma same_number a b : u32 a -> SFeqb (sf_of_bits a) (sf_of_bits b) = true -> f32_finite b -> f32_finite a /\ f32_value a = f32_value b.
Proof.
  intros U E Fb. destruct (of_bits_fin b Fb) as [Ob Vb].
  assert (Fa : f32_finite a).
  { split; [exact U|]. unfold f32_exponent. intros X. unfold sf_of_bits in E at 1. cbv zeta in E. rewrite X, Z.eqb_refl in E. destruct Ob as [_ Fn].
    destruct (sf_of_bits b); try discriminate Fn; destruct (a mod 2 ^ 23 =? 0), (2 ^ 31 <=? a); cbn in E; try (destruct s); discriminate E. }
  destruct (of_bits_fin a Fa) as [Oa Va]. split; [exact Fa|]. rewrite <- Va, <- Vb. rewrite (eqb_R 24 128 _ _ Oa Ob) in E. unfold val. destruct (Req_bool_spec (SF2R radix2 (sf_of_bits a)) (SF2R radix2 (sf_of_bits b))) as [Q|Q]; [exact Q|discriminate].
Qed.
Lemma arrives_same e lo hi a b c : u32 a -> f32_eq a b = true -> arrives e lo hi a c -> arrives e lo hi b c.
Proof. intros U E A F R. destruct (same_number a b U E F) as [Fa V]. rewrite <- V in *. apply A; [exact Fa|exact R]. Qed.
Lemma scaled_same e r hi a b c : u32 a -> f32_eq a b = true -> scaled_arrives e r hi a c -> scaled_arrives e r hi b c.
Proof. intros U E A F R. destruct (same_number a b U E F) as [Fa V]. rewrite <- V in *. apply A; [exact Fa|exact R]. Qed.
Lemma emission_same a b c : wf_FPD a -> fpd_eq a b = true -> emission_kept a c -> emission_kept b c.
Proof.
  intros (U1 & U2 & U3 & U4 & U5) E (A1 & A2 & A3 & A4 & A5). unfold fpd_eq in E. apply andb_prop in E. destruct E as [E E5]. apply andb_prop in E. destruct E as [E E4].
  apply andb_prop in E. destruct E as [E E3]. apply andb_prop in E. destruct E as [E1 E2].
  split; [exact (scaled_same _ _ _ _ _ _ U1 E1 A1)|]. split; [exact (scaled_same _ _ _ _ _ _ U2 E2 A2)|]. split; [exact (arrives_same _ _ _ _ _ _ U3 E3 A3)|]. split; [exact (arrives_same _ _ _ _ _ _ U4 E4 A4)|].
  exact (scaled_same _ _ _ _ _ _ U5 E5 A5).
Qed.
Lemma shape_same a b c : wf_BeamData a -> bd_eq a b = true -> beam_kept a c -> beam_kept b c.
Proof.
  intros (U1 & U2 & U3 & U4 & U5) E (A1 & A2 & A3 & A4 & A5). unfold bd_eq in E. apply andb_prop in E. destruct E as [E E5]. apply andb_prop in E. destruct E as [E E4].
  apply andb_prop in E. destruct E as [E E3]. apply andb_prop in E. destruct E as [E1 E2].
  split; [exact (arrives_same _ _ _ _ _ _ U1 E1 A1)|]. split; [exact (arrives_same _ _ _ _ _ _ U2 E2 A2)|]. split; [exact (arrives_same _ _ _ _ _ _ U3 E3 A3)|]. split; [exact (arrives_same _ _ _ _ _ _ U4 E4 A4)|].
  exact (arrives_same _ _ _ _ _ _ U5 E5 A5).
Qed.
(** a full update, decoded in any state, beam by beam *)
Lemma full_decoded g o now st f c r st' od ds : enc_body g o now st (BElectromagneticEmission f) = Some (c, r, st') -> full_update c -> countable f ->
  exists y G, d_out (dec_body g od ds c) = BElectromagneticEmission y /\
    (forall n k b, the_beam f n k b -> the_beam y n k (G n b)) /\ forall n b, beam_of f n (be_number b) b -> emission_kept (be_parameters b) (be_parameters (G n b)) /\ beam_kept (be_data b) (be_data (G n b)).
Proof.
  intros H FU C. cbn [enc_body] in H. destruct (enc_ee o now _ f) as [ce u] eqn:EE. injection H as <- _ _. unfold enc_ee in EE. cbv zeta in EE.
  destruct (if partial_ok o _ now _ then _ else _); injection EE as <- _; [destruct FU as [FU _]; discriminate FU|].
  cbn [dec_body d_out]. unfold dec_ee. cbv zeta. cbn [fst CEmission_full CEmission_id CEmission_event CEmission_sui CEmission_params CEmission_beams CEmission_sites CEmission_systems negb].
  rewrite andb_false_r. eexists. exists (fun n b => dec_eb false (dn_ee ds (dec_eid (enc_eid (EE_emitting_entity_id f)))) n (full_params f) (full_beams f) (site_pairs f) (enc_eb true (full_params f) (full_beams f) (site_pairs f) b)).
  split; [reflexivity|]. split.
  - assert (K : forall n k b', beam_of (MkEE (dec_eid (enc_eid (EE_emitting_entity_id f))) (dec_event (enc_event (EE_event_id f))) (EE_state_update f)
        (map (dec_esys false (dn_ee ds (dec_eid (enc_eid (EE_emitting_entity_id f)))) (full_params f) (full_beams f) (site_pairs f)) (map (enc_esys true (full_params f) (full_beams f) (site_pairs f)) (EE_systems f)))) n k b' <->
        exists b, beam_of f n k b /\ b' = dec_eb false (dn_ee ds (dec_eid (enc_eid (EE_emitting_entity_id f)))) n (full_params f) (full_beams f) (site_pairs f) (enc_eb true (full_params f) (full_beams f) (site_pairs f) b)).
    { intros n k b'. unfold beam_of. cbn [EE_systems]. split.
      - intros (e & I & N & B & Kb). rewrite map_map in I. apply in_map_iff in I. destruct I as (s & <- & S). unfold dec_esys, enc_esys in N, B. cbn [unopt cesy_number cesy_beams es_number es_beams] in N, B.
        rewrite map_map in B. apply in_map_iff in B. destruct B as (b & <- & B). exists b. split; [exists s; split; [exact S|]; split; [exact N|]; split; [exact B|exact Kb]|now rewrite <- N].
      - intros (b & (s & S & N & B & Kb) & ->). eexists. split; [rewrite map_map; apply in_map; exact S|]. unfold dec_esys, enc_esys. cbn [unopt cesy_number cesy_beams es_number es_beams]. split; [exact N|].
        split; [rewrite map_map, N; apply in_map_iff; exists b; auto|exact Kb]. }
    intros n k b [B1 B2]. split; [apply K; exists b; auto|]. intros b' B'. apply K in B'. destruct B' as (b2 & B3 & ->). now rewrite (B2 _ B3).
  - intros n b (s & S & <- & B & _). pose proof (ebeam_back f s b false (dn_ee ds (dec_eid (enc_eid (EE_emitting_entity_id f)))) C S B) as (_ & _ & X & Y & _). auto.
Qed.
Lemma wf_the_beam f n k b : wf_EE f -> the_beam f n k b -> wf_FPD (be_parameters b) /\ wf_BeamData (be_data b).
Proof.
  intros (_ & _ & _ & W) [(s & S & _ & B & _) _]. rewrite Forall_forall in W. destruct (W s S) as (_ & _ & _ & _ & W'). rewrite Forall_forall in W'. destruct (W' b B) as (_ & _ & X & Y & _). auto.
Qed.
(*@C31 End to end, for the beams of an Emission: a sender's and a receiver's codec in partial update mode, over every history of DIS PDUs with clock readings. In every partial
 update, each beam that was in the last full update of the emitter arrives with the parameters and the shape it was sent with now, changed or not. *)
Lemma cdis_emission_end_to_end_pf : forall m g o l cs st ds st' h1 now p c h2 x t0 p0 f,
  o_partial o = true -> encode_all g o l = Some (cs, st) -> decode_all m g o cs = Some (ds, st') -> combine l cs = h1 ++ (now, p, c) :: h2 ->
  pdu_body p = BElectromagneticEmission x -> partial_update (cp_body c) -> countable x ->
  last_sent_full (SuEmission (EE_emitting_entity_id x)) h1 t0 p0 -> pdu_body p0 = BElectromagneticEmission f -> countable f -> wf_EE f ->
  exists d y, nth_error ds (length h1) = Some d /\ pdu_body d = BElectromagneticEmission y /\
    beamwise (fun n b b' => forall b0, the_beam f n (be_number b) b0 -> emission_kept (be_parameters b) (be_parameters b') /\ beam_kept (be_data b) (be_data b')) x y.
Proof.
  intros m g o l cs st ds st' h1 now p c h2 x t0 p0 f Hp He Hd Hc E PU C L F Cf Wf.
  pose proof (run_length _ _ _ _ _ He) as L1. pose proof (run_length _ _ _ _ _ Hd) as L2. pose proof (encoded_all _ _ _ _ _ He) as Hall.
  assert (map snd (combine l cs) = map fst (combine cs ds)) as Hm by (rewrite combine_snd by exact L1; now rewrite combine_fst by exact L2).
  pose proof Hm as Hm'. rewrite Hc, map_app in Hm'. cbn [map snd] in Hm'. symmetry in Hm'. destruct (split_map _ _ _ _ _ Hm') as (D1 & [c' d] & D2 & HD & M1 & M2 & _). cbn in M2. subst c'.
  assert (Hnth : nth_error ds (length h1) = Some d).
  { assert (length h1 = length D1) as -> by (rewrite <- (map_length snd h1), <- M1; apply map_length).
    assert (map snd (combine cs ds) = ds) as <- by (now apply combine_snd). rewrite HD. rewrite nth_error_map, nth_error_app2 by lia. rewrite Nat.sub_diag. reflexivity. }
  destruct (run_split _ _ _ _ _ _ _ _ _ He Hc) as (s1 & s2 & R1 & R2). destruct (run_split _ _ _ _ _ _ _ _ _ Hd HD) as (s3 & s4 & R3 & R4).
  pose proof (ee_run g o _ _ _ R1) as Hi. rewrite combine_map_id in Hi. apply encode_step_some in R2. destruct R2 as [r R2]. apply decode_step_some in R4. destruct R4 as [Hb _].
  rewrite E in R2. pose proof R2 as R2'. cbn [enc_body] in R2. destruct (enc_ee o now _ x) as [ce u] eqn:EE. injection R2 as EN _ _. rewrite <- EN in PU, Hb.
  destruct (enc_ee_partial _ _ _ _ _ _ EE PU) as (e & Es & _ & ->). destruct (Hi Hp _ _ Es) as (t & q & f' & L' & F' & ->).
  destruct (last_full_unique _ _ _ _ _ _ L L') as [-> ->]. rewrite F in F'. injection F' as <-. clear L'.
  destruct L as (a1 & cq & a2 & Ha & Hfs & Hns). rewrite Hc in Hall. apply Forall_app in Hall. destruct Hall as [Hall _].
  assert (Hk : forall k, SuEmission (EE_emitting_entity_id x) <> SuIff k) by discriminate.
  destruct (paired_last _ h1 D1 t q cq [] Hk (eq_sym M1) Hall a1 a2 Ha Hfs Hns) as (E1 & dq & E2 & HE & ME & Hlast).
  assert (Hfull : exists y G, pdu_body dq = BElectromagneticEmission y /\ (forall n k b, the_beam f n k b -> the_beam y n k (G n b)) /\
     forall n b, beam_of f n (be_number b) b -> emission_kept (be_parameters b) (be_parameters (G n b)) /\ beam_kept (be_data b) (be_data (G n b))).
  { rewrite Ha in Hc. rewrite <- app_assoc in Hc. destruct (run_split _ _ _ _ _ _ _ _ _ He Hc) as (u1 & u2 & U1 & U2). apply encode_step_some in U2. destruct U2 as [r' U2].
    rewrite HE in HD. rewrite <- app_assoc in HD. destruct (run_split _ _ _ _ _ _ _ _ _ Hd HD) as (u3 & u4 & U3 & U4). apply decode_step_some in U4. destruct U4 as [-> _].
    rewrite F in U2. destruct Hfs as [_ F2]. cbn [snd] in F2. exact (full_decoded _ _ _ _ _ _ _ _ o u3 U2 F2 Cf). }
  destruct Hfull as (yf & G & Hyf & G1 & G2).
  pose proof (dec_inv_run m g o _ _ _ R3 Hp (SuEmission (EE_emitting_entity_id x))) as Di. rewrite combine_map_id in Di.
  destruct Di as [[_ Hn]|(f1 & y1 & Hl1 & _ & Hrep)]; [destruct (rnever_not_last _ _ _ Hn Hlast)|]. rewrite <- (rlast_unique _ _ _ _ Hlast Hl1), Hyf in Hrep. cbn [dec_rep] in Hrep.
  exists d. cbn [dec_body] in Hb. unfold dec_ee in Hb. cbv zeta in Hb. cbn [CEmission_full CEmission_id CEmission_event CEmission_sui CEmission_params CEmission_beams CEmission_sites CEmission_systems negb andb d_out fst] in Hb.
  rewrite eid_back, Hrep, Hp in Hb. cbn [andb] in Hb. eexists. split; [exact Hnth|]. split; [exact Hb|]. unfold beamwise. cbn [EE_systems].
  rewrite map_map. apply Forall2_map_in. intros s S. unfold dec_esys, enc_esys. cbn [cesy_name cesy_function cesy_number cesy_location cesy_beams].
  destruct (unopt (0, 0, zero_vec) _) as [[n0 f0] l0]. cbn [es_number es_beams]. rewrite map_map. apply Forall2_map_in. intros b B b0 B0.
  destruct (changes_known t f (es_number s) b b0 B0) as [K1 K2].
  assert (K : be_number b = be_number b0) by (destruct B0 as [(? & _ & _ & _ & X) _]; now symmetry).
  pose proof (beam_at_spec _ _ _ _ (G1 _ _ _ B0)) as At. destruct (wf_the_beam _ _ _ _ Wf B0) as [W1 W2].
  assert (Bo : beam_of f (es_number s) (be_number b0) b0) by (rewrite <- K; exact (proj1 B0)). destruct (G2 _ _ Bo) as [P0 Q0].
  destruct (partial_parameters x (upd_enc_ee t f) true (Some (upd_dec_ee yf)) s b C S B) as [[P|[P P']] [Q|[Q Q']]]; rewrite ?K1, ?K2 in *.
  - split; [exact P|exact Q].
  - split; [exact P|]. rewrite Q'. cbn [upd_dec_ee de_beams]. rewrite At. cbn [option_map unopt]. apply negb_false_iff in Q. exact (shape_same _ _ _ W2 Q Q0).
  - split; [|exact Q]. rewrite P'. cbn [upd_dec_ee de_params]. rewrite At. cbn [option_map unopt]. apply negb_false_iff in P. exact (emission_same _ _ _ W1 P P0).
  - split; [rewrite P'|rewrite Q']; cbn [upd_dec_ee de_params de_beams]; rewrite At; cbn [option_map unopt]; [apply negb_false_iff in P; exact (emission_same _ _ _ W1 P P0)|].
    apply negb_false_iff in Q; exact (shape_same _ _ _ W2 Q Q0).
Qed.

(** ** A history *)
Definition first_ee (bs : list Beam) : ElectromagneticEmission :=
  MkEE (MkEntityId (MkSimulationAddress 1 2) 3) (MkEventId (MkSimulationAddress 1 2) 9) 0 [MkEmitterSystem 5 6 1 one_vec bs].
Definition some_beam (n frequency : Z) : Beam :=
  MkBeam n 2 (MkFPD frequency 1073741824 1065353216 1065353216 1065353216) (MkBeamData 1065353216 0 0 0 0) 1 0 0 (MkJamming 1 2 3 4) [MkTrackJam (MkEntityId (MkSimulationAddress 7 8) 9) 1 2].
Definition two_bodies (a b : ElectromagneticEmission) : option (ElectromagneticEmission * bool) :=
  match encode_all plain_geo new_partial_update [(0, ex_dis (BElectromagneticEmission a)); (1, ex_dis (BElectromagneticEmission b))] with
  | Some ([c1; c2], _) =>
      match decode_all Wrapping plain_geo new_partial_update [c1; c2] with
      | Some ([_; d], _) => match pdu_body d, cp_body c1, cp_body c2 with BElectromagneticEmission y, CBEmission x1, CBEmission x2 => Some (y, CEmission_full x1 && negb (CEmission_full x2)) | _, _, _ => None end
      | _ => None
      end
  | _ => None
  end.
Definition in_two (a b y : ElectromagneticEmission) : Prop :=
  let o := new_partial_update in let p1 := ex_dis (BElectromagneticEmission a) in let p2 := ex_dis (BElectromagneticEmission b) in
  exists c1 c2 st d1 d2 st', encode_all plain_geo o [(0, p1); (1, p2)] = Some ([c1; c2], st) /\ decode_all Wrapping plain_geo o [c1; c2] = Some ([d1; d2], st') /\
    pdu_body d2 = BElectromagneticEmission y /\ partial_update (cp_body c2) /\ last_sent_full (SuEmission (EE_emitting_entity_id a)) [(0, p1, c1)] 0 p1.
Lemma two_bodies_spec a b y : EE_emitting_entity_id a = EE_emitting_entity_id b -> two_bodies a b = Some (y, true) -> in_two a b y.
Proof.
  intros I H. unfold two_bodies in H. destruct (encode_all _ _ _) as [[[|c1 [|c2 [|? ?]]] st]|] eqn:E; try discriminate. destruct (decode_all _ _ _ _) as [[[|d1 [|d2 [|? ?]]] st']|] eqn:D; try discriminate.
  destruct (pdu_body d2) eqn:P; try discriminate. destruct (cp_body c1) eqn:C1; try discriminate. destruct (cp_body c2) eqn:C2; try discriminate. injection H as <- F. apply andb_prop in F. destruct F as [F1 F2].
  pose proof (encoded_all _ _ _ _ _ E) as A. cbn [combine] in A. inversion A as [|? ? [_ A1] B]; subst. inversion B as [|? ? [_ A2] _]; subst. cbn [fst snd ex_dis pdu_body subject] in A1, A2.
  exists c1, c2, st, d1, d2, st'. split; [exact E|]. split; [exact D|]. split; [exact P|]. split.
  - destruct A2 as [X|[X|X]]; [|exact X|discriminate X]. rewrite C2 in X. destruct X as [X _]. rewrite X in F2. discriminate F2.
  - exists [], c1, []. split; [reflexivity|]. split; [|constructor]. split; [reflexivity|]. cbn [snd]. destruct A1 as [X|[X|X]]; [exact X| |discriminate X]. rewrite C1 in X. destruct X as [X _]. rewrite X in F1. discriminate F1.
Qed.
(*@C31 A beam that was not in the last full update is announced in a partial update without its parameters and its shape: the receiver gets zeros for them, whatever was sent. *)
Lemma cdis_new_beam_parameters_refuted_pf : exists a b y n beam, in_two a b y /\ beam_of b 1 n beam /\ (forall z, ~ beam_of a 1 n z) /\
  fp_frequency (be_parameters beam) = 1065353216 /\ bd_azc (be_data beam) = 1065353216 /\
  exists beam', beam_of y 1 n beam' /\ be_parameters beam' = MkFPD 0 0 0 0 0 /\ be_data beam' = MkBeamData 0 0 0 0 0.
Proof.
  exists (first_ee [some_beam 1 1065353216]), (first_ee [some_beam 1 1065353216; some_beam 2 1065353216]).
  destruct (two_bodies (first_ee [some_beam 1 1065353216]) (first_ee [some_beam 1 1065353216; some_beam 2 1065353216])) as [[y v]|] eqn:E; [|exfalso; vm_compute in E; discriminate E].
  exists y, 2, (some_beam 2 1065353216).
  assert (V : v = true /\ EE_systems y = EE_systems y /\ exists s, EE_systems y = [s] /\ es_number s = 1 /\ exists b1 b2, es_beams s = [b1; b2] /\ be_number b2 = 2 /\ be_parameters b2 = MkFPD 0 0 0 0 0 /\ be_data b2 = MkBeamData 0 0 0 0 0).
  { vm_compute in E. injection E as <- <-. split; [reflexivity|]. split; [reflexivity|]. eexists. split; [reflexivity|]. split; [reflexivity|]. do 2 eexists. split; [reflexivity|]. repeat split. }
  destruct V as (-> & _ & s & S & N & b1 & b2 & B & K & P & Q). split; [now apply two_bodies_spec|]. split; [eexists; split; [left; reflexivity|]; split; [reflexivity|]; split; [right; left; reflexivity|reflexivity]|].
  split; [intros z (e & [<-|[]] & _ & [<-|[]] & X); discriminate X|]. split; [reflexivity|]. split; [reflexivity|].
  exists b2. split; [exists s; rewrite S; split; [now left|]; split; [exact N|]; split; [rewrite B; right; now left|exact K]|auto].
Qed.
(*@ex*)
Example cdis_emission_history_example : exists y, let a := first_ee [some_beam 1 1065353216; some_beam 2 1065353216] in let b := first_ee [some_beam 1 1073741824; some_beam 2 1065353216] in
  in_two a b y /\ the_beam a 1 1 (some_beam 1 1065353216) /\ parameters_changed (be_parameters (some_beam 1 1065353216)) (be_parameters (some_beam 1 1073741824)) /\
  exists s, EE_systems y = [s] /\ map (fun z => fp_frequency (be_parameters z)) (es_beams s) = [1073741824; 1065353216].
Proof.
  destruct (two_bodies (first_ee [some_beam 1 1065353216; some_beam 2 1065353216]) (first_ee [some_beam 1 1073741824; some_beam 2 1065353216])) as [[y v]|] eqn:E; [|exfalso; vm_compute in E; discriminate E].
  exists y. cbv zeta. assert (V : v = true /\ exists s, EE_systems y = [s] /\ map (fun z => fp_frequency (be_parameters z)) (es_beams s) = [1073741824; 1065353216]).
  { vm_compute in E. injection E as <- <-. split; [reflexivity|]. eexists. split; reflexivity. }
  destruct V as (-> & V). split; [now apply two_bodies_spec|]. split.
  - split; [eexists; split; [left; reflexivity|]; split; [reflexivity|]; split; [left; reflexivity|reflexivity]|]. intros z (e & [<-|[]] & _ & [<-|[<-|[]]] & X); [reflexivity|discriminate X].
  - split; [left; vm_compute; reflexivity|exact V].
Qed.
(*@ex*)
Example countable_history_example : let a := first_ee [some_beam 1 1065353216; some_beam 2 1065353216] in countable a /\ wf_EE a.
Proof.
  cbv zeta. split.
  - assert (B : forall b, beam_in (first_ee [some_beam 1 1065353216; some_beam 2 1065353216]) b -> b = some_beam 1 1065353216 \/ b = some_beam 2 1065353216) by (intros b (s & [<-|[]] & [<-|[<-|[]]]); auto).
    split; [|split].
    + eexists [_]. split; [vm_compute; discriminate|]. intros a (b & H & ->). destruct (B b H) as [-> | ->]; left; reflexivity.
    + eexists [_]. split; [vm_compute; discriminate|]. intros a (b & H & ->). destruct (B b H) as [-> | ->]; left; reflexivity.
    + exists [MkSimulationAddress 7 8]. split; [vm_compute; discriminate|]. intros a (b & t & H & T & ->). destruct (B b H) as [-> | ->]; destruct T as [<-|[]]; left; reflexivity.
  - unfold wf_EE, wf_EntityId, wf_EventId, wf_EmitterSystem, wf_Beam, wf_FPD, wf_BeamData, first_ee, some_beam, one_vec. cbn.
    repeat (match goal with |- _ /\ _ => split | |- Forall _ _ => constructor end); try (unfold u8, u16, u32; lia); cbn; repeat split; try (unfold u8, u16, u32; lia); vm_compute; try discriminate; auto.
Qed.

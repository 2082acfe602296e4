(** * Across the C-DIS wire: Electromagnetic Emission (properties) *)
From Coq Require Import ZArith List Lia Bool Reals Lra.
From Verif Require Import Base CdisBase DisCommon DisHeader DisLists DisSimman DisLogistics DisWarfare DisEntity DisEmission DisRadio DisIff DisPdu DisPacket
  CdisRecords CdisBodies1 CdisBodies2 CdisIff CdisPdu CdisCodec1 CdisCodec2 CdisCodec3 SpecFloatValue SpecContent SpecBody SpecCross SpecCrossIff SpecCrossEe SpecCdisPdu SpecCodec SpecGateway
  Utf8 L_Codec L_CodecNum L_CodecPrec L_CodecContent L_CodecSim L_Gateway CrossFits CrossIff L_Cross.
Import ListNotations. Open Scope Z_scope.

Lemma quiet_parts x st : EE_systems x = [] -> site_pairs x = [] /\ full_params x = [] /\ full_beams x = [] /\ changed_params st x = [] /\ changed_beams st x = [].
Proof. intros E. unfold site_pairs, full_params, full_beams, changed_params, changed_beams, beams_of. rewrite E. repeat split. Qed.
Lemma quiet_sent o now st x : EE_systems x = [] -> exists full, fst (enc_ee o now st x) = MkCEmission full (enc_eid (EE_emitting_entity_id x)) (enc_event (EE_event_id x)) (EE_state_update x) [] [] [] [].
Proof.
  intros E. unfold enc_ee. cbv zeta. destruct (if partial_ok _ _ _ _ then _ else _) as [s|].
  - destruct (quiet_parts x s E) as (A & _ & _ & B & C). cbn [fst]. rewrite A, B, C, E. eexists. reflexivity.
  - destruct (quiet_parts x (MkEncEE 0 (fun _ _ => None) (fun _ _ => None)) E) as (A & B & C & _). cbn [fst]. rewrite A, B, C, E. eexists. reflexivity.
Qed.
Lemma quiet_sendable g o now est p x c r est' : quiet_emission p x -> encode g o now est p = Some (c, r, est') ->
  sendable c /\ ch_exercise (cp_header c) = h_exercise (pdu_header p) /\ ch_type (cp_header c) = 23 /\
  exists full, cp_body c = CBEmission (MkCEmission full (enc_eid (EE_emitting_entity_id x)) (enc_event (EE_event_id x)) (EE_state_update x) [] [] [] []).
Proof.
  intros (X & T & B & (W1 & W2 & W3 & _) & U & S) E. unfold encode in E. rewrite B in E. cbn [enc_body] in E. cbv zeta in E. destruct (quiet_sent o now (en_ee est (EE_emitting_entity_id x)) x S) as [full Q].
  destruct (enc_ee o now _ x) as [k u]. cbn [fst] in Q. injection E as <- _ _. subst k. unfold sendable, cfinalize, enc_header. cbn [cp_header cp_body ch_exercise ch_type]. rewrite T.
  split; [|split; [reflexivity|split; [reflexivity|eauto]]].
  split; [exact X|]. split; [unfold u8; lia|]. split; [reflexivity|]. cbn [fits_cbody]. unfold u8 in W3.
  split; [|reflexivity]. unfold wfits_CEmission. cbn [CEmission_full CEmission_id CEmission_event CEmission_sui CEmission_params CEmission_beams CEmission_sites CEmission_systems].
  split; [now apply eid_fits|]. split; [now apply event_fits|]. split; [upows; lia|]. do 4 (split; [constructor|]). repeat split; vm_compute; first [discriminate|reflexivity].
Qed.
(*@C52 An Electromagnetic Emission without emitter systems is never lost, in any update, and arrives as it was. *)
Lemma cdis_emission_crosses_pf : forall m g oe od now est dst p x, quiet_emission p x ->
  exists c r est' q p' r' dst', encode g oe now est p = Some (c, r, est') /\ on_the_wire m c q /\ decode Wrapping g od dst q = WOk [] (p', r', dst') /\
    h_exercise (pdu_header p') = h_exercise (pdu_header p) /\ h_type (pdu_header p') = h_type (pdu_header p) /\ pdu_body p' = pdu_body p.
Proof.
  intros m g oe od now est dst p x N.
  assert (E : exists c r est', encode g oe now est p = Some (c, r, est')).
  { destruct N as (_ & _ & B & _). unfold encode. rewrite B. cbn [enc_body]. cbv zeta. destruct (enc_ee _ _ _ _). do 3 eexists. reflexivity. }
  destruct E as (c & r & est' & E). exists c, r, est'. destruct (quiet_sendable _ _ _ _ _ _ _ _ _ N E) as (S & HX & HT & full & B).
  destruct (BRT_sendable m c S) as (bs & W & _ & R). set (q := MkCPdu _ _) in R. exists q.
  unfold decode. change (cp_body q) with (img_cbody (cp_body c)). rewrite B. cbn [img_cbody dec_body]. cbv zeta.
  unfold dec_ee, img_cemission. cbv zeta. cbn [CEmission_full CEmission_id CEmission_event CEmission_sui CEmission_params CEmission_beams CEmission_sites CEmission_systems map].
  rewrite eid_back, event_back. destruct N as (_ & T & B' & _ & _ & ES).
  unfold finalize, with_length. cbn [body_length]. unfold len_emission at 1. cbn [EE_systems wmap_sum fold_left]. cbv [wbind wret]. 
  do 3 eexists. split; [exact E|]. split; [exists bs; split; [exact W|exact R]|]. split; [reflexivity|]. cbn [pdu_header pdu_body].
  split; [exact HX|]. split; [rewrite T; reflexivity|]. rewrite B'. f_equal. destruct x as [a b d s]. cbn [EE_emitting_entity_id EE_event_id EE_state_update EE_systems] in *. now subst s.
Qed.
Lemma quiet_example_pf : quiet_emission (on_its_way (BElectromagneticEmission (MkEE sent_id (MkEventId (MkSimulationAddress 1 2) 9) 1 []))) (MkEE sent_id (MkEventId (MkSimulationAddress 1 2) 9) 1 []).
Proof. unfold quiet_emission, on_its_way. cbn [pdu_header pdu_body body_type]. repeat split; first [constructor|reflexivity|cbn; lia]. Qed.
(*@ex*)
Example cdis_emission_crosses_example : quiet_emission (on_its_way (BElectromagneticEmission (MkEE sent_id (MkEventId (MkSimulationAddress 1 2) 9) 1 []))) (MkEE sent_id (MkEventId (MkSimulationAddress 1 2) 9) 1 []).
Proof. exact quiet_example_pf. Qed.
Lemma beams_same x x' : renumbered x x' -> map snd (beams_of x') = map snd (beams_of x).
Proof.
  intros (_ & _ & _ & F). unfold beams_of. induction F as [|s s' l l' (_ & _ & _ & B & _) F IH]; cbn [flat_map]; [reflexivity|]. rewrite !map_app, !map_map, IH, B. reflexivity.
Qed.
Lemma map_snd {A B C} (f : B -> C) (l : list (A * B)) : map (fun p => f (snd p)) l = map f (map snd l).
Proof. now rewrite map_map. Qed.
Lemma flat_snd {A B C} (f : B -> list C) (l : list (A * B)) : flat_map (fun p => f (snd p)) l = flat_map f (map snd l).
Proof. induction l as [|a l IH]; cbn; [reflexivity|]. now rewrite IH. Qed.
Lemma numbers_unwritten m full ps bs ss l l' : Forall2 (fun s s' => es_name s' = es_name s /\ es_function s' = es_function s /\ es_location s' = es_location s /\ es_beams s' = es_beams s /\ (es_number s < 16 <-> es_number s' < 16)) l l' ->
  bw_list (fun a => w_cesy m a) (map (enc_esys full ps bs ss) l') = bw_list (fun a => w_cesy m a) (map (enc_esys full ps bs ss) l) /\
  zsum (map len_cesy (map (enc_esys full ps bs ss) l')) = zsum (map len_cesy (map (enc_esys full ps bs ss) l)).
Proof.
  induction 1 as [|s s' l l' (A & B & C & D & N) F [IH1 IH2]]; [split; reflexivity|]. cbn [map bw_list zsum]. rewrite IH1, IH2.
  assert (K : w_cesy m (enc_esys full ps bs ss s') = w_cesy m (enc_esys full ps bs ss s)) by (unfold w_cesy, enc_esys, cesy_details; cbn [cesy_name cesy_function cesy_location cesy_beams]; now rewrite A, B, C, D).
  rewrite K. split; [reflexivity|]. f_equal. unfold len_cesy, enc_esys. cbn [cesy_name cesy_function cesy_number cesy_location cesy_beams]. rewrite A, B, C, D.
  assert (L : len_uvint8 (es_number s') = len_uvint8 (es_number s)); [|now rewrite L].
  unfold len_uvint8, len_vint, uvint8_class. destruct (Z.leb_spec (es_number s) 15), (Z.leb_spec (es_number s') 15); try reflexivity; lia.
Qed.
(*@C52 An emitter system does not arrive: its number is not written, although the reader reads one. Two emissions with differently numbered systems, encoded in full by the same encoder,
 give the same bits, so no receiver can tell them apart. *)
Lemma cdis_emission_numbers_refuted_pf : forall m g oe now est p p1 x x1 c c1 r r1 est' est1, renumbered x x1 -> pdu_body p = BElectromagneticEmission x -> p1 = MkPdu (pdu_header p) (BElectromagneticEmission x1) ->
  encode g oe now est p = Some (c, r, est') -> encode g oe now est p1 = Some (c1, r1, est1) -> full_update (cp_body c) -> w_cpdu m c1 = w_cpdu m c.
Proof.
  intros m g oe now est p p1 x x1 c c1 r r1 est' est1 N B B1 E E1 FU. pose proof (beams_same _ _ N) as BS. pose proof N as (N1 & N2 & N3 & NS). subst p1.
  unfold encode in E, E1. cbn [pdu_body pdu_header] in E1. rewrite B in E. cbn [enc_body] in E, E1. cbv zeta in E, E1. rewrite N1 in E1.
  set (st := en_ee est _) in *. clearbody st. unfold enc_ee in E, E1. cbv zeta in E, E1.
  destruct (if partial_ok _ _ _ _ then st else None) as [s|].
  - injection E as E _ _. rewrite <- E in FU. destruct FU as [FU _]. discriminate FU.
  - injection E as E _ _. injection E1 as E1 _ _. rewrite <- E, <- E1. clear E E1 FU c c1.
    assert (S1 : site_pairs x1 = site_pairs x).
    { unfold site_pairs. rewrite !(flat_snd (fun b => map (fun t => pair_of (ei_addr (tj_entity t))) (be_tracks b))). now rewrite BS. }
    assert (S2 : full_params x1 = full_params x).
    { unfold full_params. rewrite !(map_snd (fun b => enc_fp (be_parameters b))). now rewrite BS. }
    assert (S3 : full_beams x1 = full_beams x).
    { unfold full_beams. rewrite !(map_snd (fun b => enc_beam (be_data b))). now rewrite BS. }
    rewrite S1, S2, S3, N1, N2, N3. destruct (numbers_unwritten m true (full_params x) (full_beams x) (site_pairs x) _ _ NS) as [K1 K2].
    set (l := map (enc_esys true (full_params x) (full_beams x) (site_pairs x)) (EE_systems x)) in *. set (l1 := map (enc_esys true (full_params x) (full_beams x) (site_pairs x)) (EE_systems x1)) in *.
    assert (K3 : zlen l1 = zlen l) by (unfold l, l1; rewrite !zlen_map; clear - NS; induction NS as [|? ? ? ? _ ? IH]; [reflexivity|unfold zlen in *; cbn [length]; lia]).
    unfold w_cpdu, cfinalize. cbn [cp_header cp_body ch_version ch_exercise ch_type ch_timestamp ch_length ch_status w_cbody len_cbody].
    unfold w_cemission, len_cemission. cbn [CEmission_full CEmission_id CEmission_event CEmission_sui CEmission_params CEmission_beams CEmission_sites CEmission_systems].
    rewrite K1, K2, K3. unfold enc_header. cbn [pdu_header]. reflexivity.
Qed.
Definition an_emission (n : Z) : ElectromagneticEmission := MkEE sent_id (MkEventId (MkSimulationAddress 1 2) 9) 1
  [MkEmitterSystem 4 5 n one_vec [MkBeam 1 2 (MkFPD 1065353216 1065353216 1065353216 1065353216 1065353216) (MkBeamData 1065353216 0 0 0 0) 1 0 0 (MkJamming 1 2 3 4) [MkTrackJam other_id 1 2]]].
Definition emission_sent (n : Z) : Pdu := on_its_way (BElectromagneticEmission (an_emission n)).
Lemma renumbered_pf : renumbered (an_emission 3) (an_emission 8) /\
  exists c r st c1 r1 st1, encode plain_geo new_full_update 0 enc_state_new (emission_sent 3) = Some (c, r, st) /\ full_update (cp_body c) /\
    encode plain_geo new_full_update 0 enc_state_new (emission_sent 8) = Some (c1, r1, st1) /\ c <> c1.
Proof.
  split; [repeat split; repeat constructor; cbn; lia|].
  do 6 eexists. split; [vm_compute; reflexivity|]. split; [cbn; repeat split; repeat constructor; cbn; discriminate|]. split; [vm_compute; reflexivity|]. discriminate.
Qed.
(*@ex*)
Example cdis_emission_numbers_example : renumbered (an_emission 3) (an_emission 8) /\
  exists c r st c1 r1 st1, encode plain_geo new_full_update 0 enc_state_new (emission_sent 3) = Some (c, r, st) /\ full_update (cp_body c) /\
    encode plain_geo new_full_update 0 enc_state_new (emission_sent 8) = Some (c1, r1, st1) /\ c <> c1.
Proof. exact renumbered_pf. Qed.

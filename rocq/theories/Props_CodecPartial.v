(** * Properties: CodecPartial

    Theorems only: each is closed by the lemma of the same name in L_CodecPartial.v. *)
From Coq Require Import ZArith List Lia Bool String Ascii SpecFloat Reals Lra.
From Verif Require Import Base CdisBase DisCommon DisHeader DisLists DisSimman DisLogistics DisWarfare DisEntity DisEmission DisRadio DisIff DisPdu DisPacket
  CdisRecords CdisBodies1 CdisBodies2 CdisIff CdisPdu CdisCodec1 CdisCodec2 CdisCodec3 SpecFloatValue SpecContent SpecBody SpecCodec FloatReal FloatBits L_Codec L_CodecDec L_CodecNum L_CodecContent L_CodecPartial.
Import ListNotations. Open Scope Z_scope.

(** C47. An Electromagnetic Emission in a partial update: the event, every system number and every beam with its number, index, function and status arrive, and of each of up to
 15 targets the entity; but the jamming technique of a beam, and the emitter and beam number of a target, arrive as zero. *)
Theorem cdis_partial_emission_content : forall m g oe od p c p' x, translated m g oe od p c p' -> pdu_body p = BElectromagneticEmission x -> partial_update (cp_body c) ->
  at_most 256 (fun a => exists b t, beam_in x b /\ In t (be_tracks b) /\ a = ei_addr (tj_entity t)) ->
  exists y, pdu_body p' = BElectromagneticEmission y /\ emissions_reduced x y.
Proof. exact cdis_partial_emission_content_pf. Qed.
Print Assumptions cdis_partial_emission_content.

(** C31. What changed is sent again: in every history of an encoder, in a partial Emission update each beam whose parameters (or shape) are not those it had in the last full update of
 this emitter arrives with its parameters (its shape), in every decoder, whatever that received before. *)
Theorem cdis_changed_beam_arrives : forall g o l outs st h1 now p c h2 x t0 p0 f m od dst p' r dst',
  encode_all g o l = Some (outs, st) -> combine l outs = h1 ++ (now, p, c) :: h2 -> pdu_body p = BElectromagneticEmission x -> partial_update (cp_body c) -> countable x ->
  last_sent_full (SuEmission (EE_emitting_entity_id x)) h1 t0 p0 -> pdu_body p0 = BElectromagneticEmission f -> decode m g od dst c = WOk [] (p', r, dst') ->
  exists y, pdu_body p' = BElectromagneticEmission y /\
    beamwise (fun n b b' => forall b0, the_beam f n (be_number b) b0 ->
      (parameters_changed (be_parameters b0) (be_parameters b) -> emission_kept (be_parameters b) (be_parameters b')) /\
      (shape_changed (be_data b0) (be_data b) -> beam_kept (be_data b) (be_data b'))) x y.
Proof. exact cdis_changed_beam_arrives_pf. Qed.
Print Assumptions cdis_changed_beam_arrives.

(** C31. End to end, for the beams of an Emission: a sender's and a receiver's codec in partial update mode, over every history of DIS PDUs with clock readings. In every partial
 update, each beam that was in the last full update of the emitter arrives with the parameters and the shape it was sent with now, changed or not. *)
Theorem cdis_emission_end_to_end : forall m g o l cs st ds st' h1 now p c h2 x t0 p0 f,
  o_partial o = true -> encode_all g o l = Some (cs, st) -> decode_all m g o cs = Some (ds, st') -> combine l cs = h1 ++ (now, p, c) :: h2 ->
  pdu_body p = BElectromagneticEmission x -> partial_update (cp_body c) -> countable x ->
  last_sent_full (SuEmission (EE_emitting_entity_id x)) h1 t0 p0 -> pdu_body p0 = BElectromagneticEmission f -> countable f -> wf_EE f ->
  exists d y, nth_error ds (length h1) = Some d /\ pdu_body d = BElectromagneticEmission y /\
    beamwise (fun n b b' => forall b0, the_beam f n (be_number b) b0 -> emission_kept (be_parameters b) (be_parameters b') /\ beam_kept (be_data b) (be_data b')) x y.
Proof. exact cdis_emission_end_to_end_pf. Qed.
Print Assumptions cdis_emission_end_to_end.

(** C31. A beam that was not in the last full update is announced in a partial update without its parameters and its shape: the receiver gets zeros for them, whatever was sent. *)
Theorem cdis_new_beam_parameters_refuted : exists a b y n beam, in_two a b y /\ beam_of b 1 n beam /\ (forall z, ~ beam_of a 1 n z) /\
  fp_frequency (be_parameters beam) = 1065353216 /\ bd_azc (be_data beam) = 1065353216 /\
  exists beam', beam_of y 1 n beam' /\ be_parameters beam' = MkFPD 0 0 0 0 0 /\ be_data beam' = MkBeamData 0 0 0 0 0.
Proof. exact cdis_new_beam_parameters_refuted_pf. Qed.
Print Assumptions cdis_new_beam_parameters_refuted.

Example cdis_emission_history_example : exists y, let a := first_ee [some_beam 1 1065353216; some_beam 2 1065353216] in let b := first_ee [some_beam 1 1073741824; some_beam 2 1065353216] in
  in_two a b y /\ the_beam a 1 1 (some_beam 1 1065353216) /\ parameters_changed (be_parameters (some_beam 1 1065353216)) (be_parameters (some_beam 1 1073741824)) /\
  exists s, EE_systems y = [s] /\ map (fun z => fp_frequency (be_parameters z)) (es_beams s) = [1073741824; 1065353216].
Proof.
  destruct (two_bodies (first_ee [some_beam 1 1065353216; some_beam 2 1065353216]) (first_ee [some_beam 1 1073741824; some_beam 2 1065353216])) as [[y v]|] eqn:E; [|exfalso; vm_compute in E; discriminate E].
  exists y. cbv zeta. assert (V : v = true /\ exists s, EE_systems y = [s] /\ map (fun z => fp_frequency (be_parameters z)) (es_beams s) = [1073741824; 1065353216]).
  { vm_compute in E. injection E as <- <-. split; [reflexivity|]. eexists. split; reflexivity. }
  destruct V as (-> & V). split; [now apply two_bodies_spec|]. split.
  - split; [eexists; split; [left; reflexivity|]; split; [reflexivity|]; split; [left; reflexivity|reflexivity]|]. intros z (e & [<-|[]] & _ & [<-|[<-|[]]] & X); [reflexivity|discriminate X].
  - split; [left; vm_compute; reflexivity|exact V].
Qed.

Example countable_history_example : let a := first_ee [some_beam 1 1065353216; some_beam 2 1065353216] in countable a /\ wf_EE a.
Proof.
  cbv zeta. split.
  - assert (B : forall b, beam_in (first_ee [some_beam 1 1065353216; some_beam 2 1065353216]) b -> b = some_beam 1 1065353216 \/ b = some_beam 2 1065353216) by (intros b (s & [<-|[]] & [<-|[<-|[]]]); auto).
    split; [|split].
    + eexists [_]. split; [vm_compute; discriminate|]. intros a (b & H & ->). destruct (B b H) as [-> | ->]; left; reflexivity.
    + eexists [_]. split; [vm_compute; discriminate|]. intros a (b & H & ->). destruct (B b H) as [-> | ->]; left; reflexivity.
    + exists [MkSimulationAddress 7 8]. split; [vm_compute; discriminate|]. intros a (b & t & H & T & ->). destruct (B b H) as [-> | ->]; destruct T as [<-|[]]; left; reflexivity.
  - unfold wf_EE, wf_EntityId, wf_EventId, wf_EmitterSystem, wf_Beam, wf_FPD, wf_BeamData, first_ee, some_beam, one_vec. cbn.
    repeat (match goal with |- _ /\ _ => split | |- Forall _ _ => constructor end); try (unfold u8, u16, u32; lia); cbn; repeat split; try (unfold u8, u16, u32; lia); vm_compute; try discriminate; auto.
Qed.

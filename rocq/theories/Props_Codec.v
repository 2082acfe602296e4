(** * Properties: Codec

    Theorems only: each is closed by the lemma of the same name in L_Codec.v. *)
From Coq Require Import ZArith List Lia Bool String Ascii SpecFloat.
From Verif Require Import Base CdisBase DisCommon DisHeader DisLists DisSimman DisLogistics DisWarfare DisEntity DisEmission DisRadio DisIff DisText DisPdu DisPacket
  CdisRecords CdisBodies1 CdisBodies2 CdisIff CdisPdu CdisCodec1 CdisCodec2 CdisCodec3 SpecCodec L_Codec.
Import ListNotations. Open Scope Z_scope.

(** C30. The full-update discipline, over every history of PDUs with clock readings (any, not only rising), for the five PDU types with codec state: each C-DIS
 PDU produced is either a full update, carrying every static field, or a partial update, carrying none; and it is a full update exactly when the codec
 is in full update mode, or no full update of this entity (of this radio) was sent before, or the last one has timed out: in f32 arithmetic, the
 seconds elapsed since it was sent exceed the heartbeat parameter that governs this PDU times the multiplier (what that means in real numbers is
 cdis_full_update_timing). *)
Theorem cdis_full_update_discipline : forall g o l outs st,
  encode_all g o l = Some (outs, st) ->
  forall h1 now p c h2 s, combine l outs = h1 ++ (now, p, c) :: h2 -> subject (pdu_body p) = Some s ->
  (full_update (cp_body c) \/ partial_update (cp_body c)) /\ ~ (full_update (cp_body c) /\ partial_update (cp_body c)) /\
  (full_update (cp_body c) <->
   o_partial o = false \/ never_sent_full s h1 \/
   exists t q, last_sent_full s h1 t q /\ timed_out o (heartbeat_parameter (o_hbt o) (pdu_body p)) now t = true).
Proof. exact cdis_full_update_discipline_pf. Qed.
Print Assumptions cdis_full_update_discipline.

(** C41. The C-DIS encoder survives any history in which the markings of Entity State PDUs, as Rust strings, are at most 11 octets or have a character that ends
 at octet 11 (all ASCII markings do): it gives one C-DIS PDU for each PDU. *)
Theorem cdis_encoder_survives : forall g o l,
  Forall (fun i => forall x, pdu_body (snd i) = BEntityState x -> exists s, text s (mk_string (EntityState_marking x)) /\ can_cut s) l ->
  exists outs st, encode_all g o l = Some (outs, st) /\ length outs = length l.
Proof. exact cdis_encoder_survives_pf. Qed.
Print Assumptions cdis_encoder_survives.

(** C41. And it does not survive the others: whatever came before, an Entity State PDU that is to be sent in full with a marking that has no
 character boundary at octet 11 is a panic. *)
Theorem cdis_encoder_marking_panic : forall g o l now h x s,
  o_partial o = false -> text s (mk_string (EntityState_marking x)) -> ~ can_cut s -> encode_all g o (l ++ [(now, MkPdu h (BEntityState x))]) = None.
Proof. exact cdis_encoder_marking_panic_pf. Qed.
Print Assumptions cdis_encoder_marking_panic.

Example cdis_encoder_survives_example : text [86; 105; 112; 101; 114] (mk_string (EntityState_marking (ex_dis_es 3 1 [86; 105; 112; 101; 114]))) /\ can_cut [86; 105; 112; 101; 114].
Proof. split; [split; [repeat constructor; unfold scalar; lia|reflexivity]|left; vm_compute; discriminate]. Qed.

Example cdis_encoder_marking_panic_example : let s := [65; 65; 65; 65; 65; 65; 65; 65; 65; 65; 233] in
  text s (mk_string (EntityState_marking (ex_dis_es 3 1 [65; 65; 65; 65; 65; 65; 65; 65; 65; 65; 195; 169]))) /\ ~ can_cut s.
Proof.
  split; [split; [repeat constructor; unfold scalar; lia|reflexivity]|]. intros H. apply can_cut_spec in H. apply H. reflexivity.
Qed.

Example cdis_full_update_example : forall g, exists outs st,
  encode_all g new_partial_update [(0, ex_dis (BEntityState (ex_dis_es 3 1 [86; 49]))); (second, ex_dis (BEntityState (ex_dis_es 3 1 [86; 49])));
     (2 * second, ex_dis (BEntityState (ex_dis_es 4 1 [86; 50]))); (13 * second, ex_dis (BEntityState (ex_dis_es 3 1 [86; 49])))] = Some (outs, st) /\
  map (fun c => flagged_full (cp_body c)) outs = [true; false; true; true].
Proof. intros g. eexists; eexists. split; [vm_compute; reflexivity|reflexivity]. Qed.

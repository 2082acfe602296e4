(** * Lemmas behind Props_Wire.v *)
From Coq Require Import ZArith List Lia Bool.
From Verif Require Import Base DisCommon DisLists DisSimman DisLogistics DisWarfare DisEntity DisEmission DisRadio DisIff DisHeader DisPdu DisPacket SpecWire.
Import ListNotations. Open Scope Z_scope.

(** ** Sample PDUs *)
Definition eid (a b c : Z) := MkEntityId (MkSimulationAddress a b) c.
Definition evid (a b c : Z) := MkEventId (MkSimulationAddress a b) c.
Definition sample_ack : Pdu :=
  MkPdu (MkPduHeader 7 1 15 5 1000 32 (Some (build_cei_lvc 0 1)) 0)
        (BAcknowledge (MkAcknowledge (eid 1 2 3) (eid 4 5 6) 1 0 77)).
Definition sample_collision : Pdu :=
  MkPdu (MkPduHeader 6 1 4 1 1000 72 None 0)
        (BCollision (MkCollision (eid 1 2 3) (eid 4 5 6) (evid 1 2 9) 1 (MkVectorF32 1 2 3) 100 (MkVectorF32 0 0 0))).
Definition sample_fire : Pdu :=
  MkPdu (MkPduHeader 6 1 2 2 1000 40 None 0)
        (BFire (MkFire (eid 1 2 3) (eid 4 5 6) (eid 7 8 9) (evid 1 2 9) 1 (MkLocation 1 2 3)
                  (DMunition (MkEntityType 2 2 225 1 3 0 0) (MkMunitionDescriptor 1000 100 1 1)) (MkVectorF32 1 2 3) 100)).
Definition sample_other : Pdu :=
  MkPdu (MkPduHeader 7 1 130 7 1000 16 (Some default_status) 0) (BOther (MkOther None None [9; 8; 7; 6])).

(*@C04
Parsing a serialized header gives back the same header and consumes exactly its twelve octets,
whatever follows. *)
Lemma C04_header_round_trip_pf : forall h, wf_PduHeader h -> fits_header h ->
  exists bs, w_header h = WOk bs 12 /\ zlen bs = 12 /\ forall rest, p_header (bs ++ rest) = POk rest h.
Proof. intros h Hw Hf. exact (RT_header h Hw Hf). Qed.
(*@ex*)
Example C04_header_example : wf_PduHeader (pdu_header sample_ack) /\ fits_header (pdu_header sample_ack).
Proof.
  split; [unfold wf_PduHeader, u8, u16, u32; cbn; lia|]. split; [reflexivity|]. cbn. eexists. split; [reflexivity|].
  intros []; cbn; lia.
Qed.

(*@C04
The side condition is needed: a version other than 1..7 is parsed as if it carried a status octet,
but serialization writes zero there, so the status is lost. *)
Lemma C04_future_version_status_refuted_pf : exists h h', wf_PduHeader h /\ h_padding h = 0 /\
  (exists s, h_status h = Some s /\ status_ok (h_type h) s) /\
  (exists bs, w_header h = WOk bs 12 /\ p_header bs = POk [] h') /\ h' <> h.
Proof.
  exists (MkPduHeader 8 1 15 5 1000 32 (Some (build_cei_lvc 1 2)) 0), (MkPduHeader 8 1 15 5 1000 32 (Some (build_cei_lvc 0 0)) 0).
  split; [unfold wf_PduHeader, u8, u16, u32; cbn; lia|]. split; [reflexivity|]. split.
  { eexists. split; [reflexivity|]. intros []; cbn; lia. }
  split; [|discriminate]. eexists. split; vm_compute; reflexivity.
Qed.

(*@C05
Serializing a status that is well formed for a PDU type and parsing it returns the same indicators. *)
Lemma C05_status_write_parse_pf : forall ty s, status_ok ty s ->
  0 <= write_status ty s < 256 /\ parse_status ty (write_status ty s) = s.
Proof. intros ty s H. split; [apply write_status_u8|now apply parse_write_status]. Qed.
(*@ex*)
Example C05_status_example : status_ok 28 (build_aii_ism_cei_lvc_tei 1 0 1 2 1) /\
  write_status 28 (build_aii_ism_cei_lvc_tei 1 0 1 2 1) = 45.
Proof. split; [intros []; cbn; lia|reflexivity]. Qed.

(*@C05
Parsing a status octet reads, for each indicator the PDU type carries, the bits the standard assigns
to it, and yields no other indicator. *)
Lemma C05_status_parse_value_pf : forall ty b i, u8 ty -> u8 b ->
  ind_get i (parse_status ty b) =
    if carries ty i then Some ((b / 2 ^ ind_pos i) mod 2 ^ ind_width i) else None.
Proof. exact parse_status_value. Qed.

(*@C05
Parsing then serializing a status octet keeps exactly the bits used by the PDU type. *)
Lemma C05_status_parse_write_pf : forall ty b k, u8 ty -> u8 b -> 0 <= k < 8 ->
  Z.testbit (write_status ty (parse_status ty b)) k = used_bit ty k && Z.testbit b k.
Proof. exact write_parse_status. Qed.

(** ** C06 *)
Lemma exact_excess b : In (body_type b) exact_types -> returned_excess b = 0 /\ claimed_excess b = 0.
Proof.
  destruct b; cbn [body_type returned_excess claimed_excess]; auto; intros H; exfalso; cbn [In exact_types] in H; intuition discriminate.
Qed.

Lemma sample_ack_ok : wf_Pdu sample_ack /\ fits_Pdu sample_ack /\ size_pdu sample_ack <= 65500.
Proof.
  split; [|split].
  - unfold wf_Pdu. cbn. unfold wf_PduHeader, wf_Acknowledge, wf_EntityId, wf_SimulationAddress, u8, u16, u32. cbn. lia.
  - split; [|cbn; unfold fits_acknowledge; cbn; lia || (split; [reflexivity|exact I])]. 
    split; [reflexivity|]. cbn. eexists. split; [reflexivity|]. intros []; cbn; lia.
  - vm_compute. discriminate.
Qed.
(** A PDU of type [ty] obtained by parsing a version 7 packet with [body] after the header. *)
Definition sample_packet (ty : Z) (body : list Z) : list Z := [7; 1; ty; 1; 0; 0; 0; 0] ++ be 2 (12 + zlen body) ++ [0; 0] ++ body.
Definition sample_pdu (ty : Z) (body : list Z) : Pdu :=
  match parse Wrapping (sample_packet ty body) with Parsed (p :: _) => p | _ => sample_ack end.
Definition zeros (n : nat) : list Z := repeat 0 n.
(** An aggregate with one silent entity system. *)
Definition aggregate_octets : list Z := zeros 112 ++ [0; 0; 0; 0; 0; 0; 0; 1] ++ zeros 12 ++ zeros 4.

(*@C06
Refutation for each of the remaining implemented types: some PDU of that type, which parses back from
the octets written, is written with a size different from the one returned or advertised. *)
Lemma C06_serialize_exact_refuted_pf : forall ty, In ty [1; 2; 3; 4; 5; 6; 7; 8; 25; 28; 33; 34; 35; 36; 63] ->
  exists p bs returned advertised, body_type (pdu_body p) = ty /\
    serialize Checked p [] 2000 = (bs, Written returned) /\ pdu_length Checked p = WOk [] advertised /\
    parse Checked bs = Parsed [p] /\ (returned <> zlen bs \/ advertised <> zlen bs).
Proof.
  intros ty H. cbn [In] in H.
  repeat (destruct H as [<-|H]); try contradiction.
  - exists (sample_pdu 1 (zeros 132)). do 3 eexists. repeat (split; [vm_compute; reflexivity|]). vm_compute. (left; discriminate) || (right; discriminate).
  - exists (sample_pdu 2 (zeros 84)). do 3 eexists. repeat (split; [vm_compute; reflexivity|]). vm_compute. (left; discriminate) || (right; discriminate).
  - exists (sample_pdu 3 (zeros 92)). do 3 eexists. repeat (split; [vm_compute; reflexivity|]). vm_compute. (left; discriminate) || (right; discriminate).
  - exists (sample_pdu 4 (zeros 48)). do 3 eexists. repeat (split; [vm_compute; reflexivity|]). vm_compute. (left; discriminate) || (right; discriminate).
  - exists (sample_pdu 5 (zeros 16)). do 3 eexists. repeat (split; [vm_compute; reflexivity|]). vm_compute. (left; discriminate) || (right; discriminate).
  - exists (sample_pdu 6 (zeros 16)). do 3 eexists. repeat (split; [vm_compute; reflexivity|]). vm_compute. (left; discriminate) || (right; discriminate).
  - exists (sample_pdu 7 (zeros 16)). do 3 eexists. repeat (split; [vm_compute; reflexivity|]). vm_compute. (left; discriminate) || (right; discriminate).
  - exists (sample_pdu 8 (zeros 12)). do 3 eexists. repeat (split; [vm_compute; reflexivity|]). vm_compute. (left; discriminate) || (right; discriminate).
  - exists (sample_pdu 25 (zeros 92)). do 3 eexists. repeat (split; [vm_compute; reflexivity|]). vm_compute. (left; discriminate) || (right; discriminate).
  - exists (sample_pdu 28 (zeros 48)). do 3 eexists. repeat (split; [vm_compute; reflexivity|]). vm_compute. (left; discriminate) || (right; discriminate).
  - exists (sample_pdu 33 aggregate_octets). do 3 eexists. repeat (split; [vm_compute; reflexivity|]). vm_compute. (left; discriminate) || (right; discriminate).
  - exists (sample_pdu 34 (zeros 28)). do 3 eexists. repeat (split; [vm_compute; reflexivity|]). vm_compute. (left; discriminate) || (right; discriminate).
  - exists (sample_pdu 35 (zeros 28)). do 3 eexists. repeat (split; [vm_compute; reflexivity|]). vm_compute. (left; discriminate) || (right; discriminate).
  - exists (sample_pdu 36 (zeros 32)). do 3 eexists. repeat (split; [vm_compute; reflexivity|]). vm_compute. (left; discriminate) || (right; discriminate).
  - exists (sample_pdu 63 (zeros 30)). do 3 eexists. repeat (split; [vm_compute; reflexivity|]). vm_compute. (left; discriminate) || (right; discriminate).
Qed.

(** ** C07 *)
(*@C07
[serialize] reports an insufficient buffer exactly when the PDU length exceeds the capacity, names both
numbers, and then leaves the buffer as it was. *)
Lemma C07_insufficient_buffer_pf : forall m p buf cap n, pdu_length m p = WOk [] n ->
  (cap < n -> serialize m p buf cap = (buf, InsufficientBufferSize n cap)) /\
  (n <= cap -> forall a b, snd (serialize m p buf cap) <> InsufficientBufferSize a b).
Proof.
  intros m p buf cap n Hn. unfold serialize. rewrite Hn. split; intros Hc.
  - now replace (cap <? n) with true by lia.
  - replace (cap <? n) with false by lia. intros a b. destruct (w_pdu m p); cbn [snd]; discriminate.
Qed.
(*@ex*)
Example C07_insufficient_example : pdu_length Checked sample_ack = WOk [] 32 /\
  serialize Checked sample_ack [1; 2] 31 = ([1; 2], InsufficientBufferSize 32 31).
Proof. split; vm_compute; reflexivity. Qed.

(*@C07
Refutation of the claim for the true length: a Fire PDU takes 96 octets but is accepted by a buffer of
capacity 40 (the buffer silently grows), and a Collision PDU of 60 octets is rejected by a buffer of
capacity 60. *)
Lemma C07_insufficient_true_length_refuted_pf :
  (exists p bs n, wf_Pdu p /\ serialize Checked p [] 40 = (bs, Written n) /\ zlen bs = 96) /\
  (exists p bs n, wf_Pdu p /\ serialize Checked p [] 60 = ([], InsufficientBufferSize 72 60) /\
                  serialize Checked p [] 72 = (bs, Written n) /\ zlen bs = 60).
Proof.
  split.
  - exists sample_fire. do 2 eexists. split.
    + unfold wf_Pdu. cbn. unfold wf_PduHeader, wf_Fire, wf_EntityId, wf_EventId, wf_SimulationAddress, wf_Location, wf_VectorF32, wf_DescriptorRecord,
        wf_EntityType, wf_MunitionDescriptor, u8, u16, u32, u64. cbn. unfold u8, u16, u32, u64. lia.
    + split; vm_compute; reflexivity.
  - exists sample_collision. do 2 eexists. split.
    + unfold wf_Pdu. cbn. unfold wf_PduHeader, wf_Collision, wf_EntityId, wf_EventId, wf_SimulationAddress, wf_VectorF32, u8, u16, u32, u64. cbn.
      unfold u8, u16, u32, u64. lia.
    + split; [|split]; vm_compute; reflexivity.
Qed.

(** ** C08 *)
Lemma family_table ty : 0 <= ty <= 72 -> belongs_to_family ty (family_of ty).
Proof.
  intros H.
  assert (forallb (fun ty => existsb (fun fl => (fst fl =? family_of ty) && existsb (Z.eqb ty) (snd fl)) dis_families) (map Z.of_nat (seq 0 73)) = true) as Hc
    by (vm_compute; reflexivity).
  rewrite forallb_forall in Hc. specialize (Hc ty).
  assert (Hin : In ty (map Z.of_nat (seq 0 73))).
  { apply in_map_iff. exists (Z.to_nat ty). split; [lia|]. apply in_seq. lia. }
  apply Hc in Hin. apply existsb_exists in Hin. destruct Hin as ([f l] & Hin & Hb). cbn [fst snd] in Hb.
  apply andb_true_iff in Hb. destruct Hb as [Hf He]. apply Z.eqb_eq in Hf. apply existsb_exists in He.
  destruct He as (t & Ht & E). apply Z.eqb_eq in E. subst. exists l. auto.
Qed.
Lemma family_unique ty f f' : belongs_to_family ty f -> belongs_to_family ty f' -> f = f'.
Proof.
  intros (l & Hl & Ht) (l' & Hl' & Ht'). unfold dis_families in *. cbn [In] in Hl, Hl'.
  repeat (destruct Hl as [Hl|Hl]); try contradiction; injection Hl as <- <-;
  repeat (destruct Hl' as [Hl'|Hl']); try contradiction; injection Hl' as <- <-; try reflexivity;
  exfalso; cbn [In] in Ht, Ht'; intuition congruence.
Qed.
Lemma body_type_range b : wf_body b -> 0 <= body_type b <= 72.
Proof. destruct b; cbn [wf_body body_type]; intros H; try lia.
  unfold unit_types in H. cbn [In] in H. repeat (destruct H as [<-|H]; [lia|]). contradiction. Qed.

(*@C08
A finalized PDU carries the given body; its header has the type of the body, the protocol family of that
type, the given time stamp and the length 12 + body length; version, exercise, status and padding are
those of the given header. *)
Lemma C08_finalize_pf : forall m h b ts p, wf_body b -> finalize m h b ts = WOk [] p ->
  pdu_body p = b /\ h_type (pdu_header p) = body_type b /\ belongs_to_family (body_type b) (h_family (pdu_header p)) /\
  h_time (pdu_header p) = ts /\
  (exists n, body_length m b = WOk [] n /\ h_length (pdu_header p) = (12 + n) mod 65536 /\
             pdu_length m p = WOk [] (h_length (pdu_header p)) /\ (m = Checked -> 12 + n < 65536)) /\
  h_version (pdu_header p) = h_version h /\ h_exercise (pdu_header p) = h_exercise h /\
  h_status (pdu_header p) = h_status h /\ h_padding (pdu_header p) = h_padding h.
Proof.
  intros m h b ts p Hw. unfold finalize, with_length, wbind, wret.
  destruct (body_length m b) as [l n|] eqn:En; [|discriminate].
  destruct (add16 m 12 n) as [l' k|] eqn:Ek; [|discriminate].
  intros H. inversion H as [[Hl Hp]]. clear H Hp. apply app_eq_nil in Hl. destruct Hl as [-> Hl]. rewrite !app_nil_r in Hl. subst l'.
  assert (Hk : k = (12 + n) mod 65536 /\ (m = Checked -> 12 + n < 65536)).
  { unfold add16, arith in Ek. destruct ((0 <=? 12 + n) && (12 + n <? 65536)) eqn:E.
    - assert (k = 12 + n) as -> by (unfold wret in Ek; congruence). apply andb_true_iff in E. destruct E as [E1 E2]. split; [rewrite Z.mod_small; lia|intros _; apply Z.ltb_lt; exact E2].
    - destruct m; [discriminate|]. split; [unfold wret in Ek; congruence|discriminate]. }
  cbn [pdu_body pdu_header h_type h_family h_time h_length h_version h_exercise h_status h_padding with_time_stamp with_pdu_type].
  repeat (split; [reflexivity|]). split; [apply family_table; now apply body_type_range|]. split; [reflexivity|].
  split; [|repeat split].
  exists n. split; [reflexivity|]. split; [tauto|]. split; [|tauto].
  unfold pdu_length, wbind. cbn [pdu_body]. rewrite En, Ek. reflexivity.
Qed.
(*@C08
The family is determined by the table. *)
Lemma C08_family_unique_pf : forall ty f f', belongs_to_family ty f -> belongs_to_family ty f' -> f = f'.
Proof. exact family_unique. Qed.
(*@ex*)
Example C08_finalize_example : exists p, finalize Checked (header_new 7 3 0) (pdu_body sample_ack) 42 = WOk [] p /\
  h_length (pdu_header p) = 32 /\ h_type (pdu_header p) = 15 /\ h_family (pdu_header p) = 5 /\ h_exercise (pdu_header p) = 3.
Proof. eexists. split; [vm_compute; reflexivity|]. repeat split. Qed.

(** ** C09 *)
(*@C09
Parsing the octets of a serialized PDU returns exactly that PDU. *)
Lemma C09_parse_serialize_pf : forall m p cap bs n,
  wf_Pdu p -> fits_Pdu p -> size_pdu p <= 65500 ->
  serialize m p [] cap = (bs, Written n) -> parse m bs = Parsed [p].
Proof.
  intros m p cap bs n Hw Hf Hs He.
  destruct (Z_lt_ge_dec cap (claimed_length p)) as [Hc|Hc].
  { rewrite serialize_small in He by assumption. discriminate. }
  rewrite serialize_wire in He by (assumption || lia). cbn [app] in He. inversion He; subst.
  pose proof (parse_packet m [p] [] Eof) as H. unfold packet in H. cbn [map concat] in H. rewrite !app_nil_r in H.
  apply H; [discriminate|constructor; [auto|constructor]|now apply p_pdu_nil].
Qed.

(** finalization keeps the integers of the header in range *)
Lemma finalize_wf m h b ts p : wf_PduHeader h -> wf_body b -> u32 ts -> finalize m h b ts = WOk [] p -> wf_Pdu p.
Proof.
  intros Hh Hb Ht E. destruct (C08_finalize_pf m h b ts p Hb E) as (Eb & Ety & Ef & Ets & (n & En & El & _) & Ev & Ex & Es & Ep).
  destruct Hh as (H1 & H2 & H3 & H4 & H5 & H6 & H7). pose proof (body_type_range b Hb).
  split; [|now rewrite Eb]. unfold wf_PduHeader. rewrite Ety, Ets, El, Ev, Ex, Ep.
  repeat (split; [assumption || (unfold u8; lia)|]).
  split; [|split; [assumption|split; [unfold u16; apply Z.mod_pos_bound; lia|assumption]]].
  destruct Ef as (l & Hin & _). unfold dis_families in Hin. cbn [In] in Hin.
  repeat (destruct Hin as [Hin|Hin]; [injection Hin as <- _; unfold u8; lia|]). contradiction.
Qed.
(*@C09
The same for a PDU built with [finalize_from_parts], from a well-formed header and body. *)
Lemma C09_parse_serialize_finalized_pf : forall m h b ts p cap bs n,
  wf_PduHeader h -> wf_body b -> u32 ts -> finalize m h b ts = WOk [] p ->
  fits_Pdu p -> size_pdu p <= 65500 -> serialize m p [] cap = (bs, Written n) -> parse m bs = Parsed [p].
Proof. intros. eapply C09_parse_serialize_pf; try eassumption. eapply finalize_wf; eassumption. Qed.
(*@ex*)
Example C09_example : wf_Pdu sample_ack /\ fits_Pdu sample_ack /\ size_pdu sample_ack <= 65500 /\
  finalize Checked (MkPduHeader 7 1 0 0 0 0 (Some (build_cei_lvc 0 1)) 0) (pdu_body sample_ack) 1000 = WOk [] sample_ack /\
  exists bs, serialize Checked sample_ack [] 32 = (bs, Written 32) /\ parse Checked bs = Parsed [sample_ack].
Proof.
  destruct sample_ack_ok as (H1 & H2 & H3). split; [exact H1|]. split; [exact H2|]. split; [exact H3|].
  split; [vm_compute; reflexivity|]. eexists. split; [vm_compute; reflexivity|vm_compute; reflexivity].
Qed.

(** Well-typed PDUs that do not survive *)
Definition fin (h : PduHeader) (b : PduBody) : Pdu := match finalize Wrapping h b 0 with WOk _ p => p | _ => sample_ack end.
Definition bad_action_response_r := fin (header_new 6 1 0) (BActionResponseR (MkActionResponseR (eid 1 1 1) (eid 2 2 2) 7 1 [] [])).
Definition bad_separation := fin (header_new 6 1 0)
  (BEntityStateUpdate (MkEntityStateUpdate (eid 1 1 1) (MkVectorF32 0 0 0) (MkLocation 0 0 0) (MkOrientation 0 0 0)
     (EntityStateUpdate_appearance (match pdu_body (sample_pdu 67 (zeros 72)) with BEntityStateUpdate x => x | _ => MkEntityStateUpdate (eid 0 0 0) (MkVectorF32 0 0 0) (MkLocation 0 0 0) (MkOrientation 0 0 0) (MkAppearance (appearance_kind 0 0) 0) [] end))
     [VPSeparation (MkSeparation 1 0 (eid 9 9 9) 3 4)])).
Definition bad_explosion := fin (MkPduHeader 7 1 0 0 0 0 (Some (build_dti_cei_lvc 2 0 0)) 0)
  (BDetonation (MkDetonation (eid 1 1 1) (eid 2 2 2) (eid 0 0 0) (evid 1 1 1) (MkVectorF32 0 0 0) (MkLocation 0 0 0)
     (DExplosion (MkEntityType 2 2 0 0 0 0 0) 100 0x42C80000) (MkVectorF32 0 0 0) 0 [])).
Definition bad_signal := fin (header_new 6 1 0) (BSignal (MkSignal (eid 1 1 1) 1 (EsEncodedAudio 0 1) 0 8000 1 [5])).
Definition bad_other := fin (header_new 6 1 0) (BUnit 70).

(*@C09
Refutation of the claim without the side conditions: well-typed finalized PDUs, of an R-family action
response, of an entity with a separation record, of an explosion and of an
unimplemented type, are serialized but parsed to something else. *)
Lemma C09_parse_serialize_refuted_pf : forall p,
  In p [bad_action_response_r; bad_separation; bad_explosion; bad_other] ->
  exists bs n r, serialize Checked p [] 2000 = (bs, Written n) /\ h_length (pdu_header p) <= 2000 /\
    parse Checked bs = r /\ r <> Parsed [p].
Proof.
  intros p H. cbn [In] in H. repeat (destruct H as [<-|H]); try contradiction;
  (do 3 eexists; split; [vm_compute; reflexivity|]; split; [vm_compute; discriminate|]; split; [vm_compute; reflexivity|]; vm_compute; discriminate).
Qed.

(** ** C10, C11 *)
(*@C10
A buffer that is the concatenation of serialized PDUs, followed by anything that does not start a PDU
(for instance nothing), parses to exactly those PDUs in order. *)
Lemma C10_parse_packet_pf : forall m l bss junk, l <> [] ->
  Forall2 (fun p bs => wf_Pdu p /\ fits_Pdu p /\ size_pdu p <= 65500 /\ exists cap n, serialize m p [] cap = (bs, Written n)) l bss ->
  parse m junk = ParseError -> parse m (concat bss ++ junk) = Parsed l.
Proof.
  intros m l bss junk Hne H Hj. apply parse_error_iff in Hj. destruct Hj as [k Hj].
  assert (concat bss = packet m l /\ Forall (fun p => wf_Pdu p /\ fits_Pdu p /\ size_pdu p <= 65500) l) as [-> Hall].
  { clear Hne Hj. induction H as [|p bs l bss (Hw & Hf & Hs & cap & n & He) H IH]; [split; [reflexivity|constructor]|].
    destruct IH as [E IH]. unfold packet in *. cbn [concat map]. rewrite E. split; [|constructor; auto]. f_equal.
    destruct (Z_lt_ge_dec cap (claimed_length p)) as [Hc|Hc].
    { rewrite serialize_small in He by assumption. discriminate. }
    rewrite serialize_wire in He by (assumption || lia). cbn [app] in He. congruence. }
  eapply parse_packet; eassumption.
Qed.
(*@ex*)
Example C10_example : parse Checked (wire Checked sample_ack ++ wire Checked sample_collision ++ []) = Parsed [sample_ack; sample_collision]
  /\ parse Checked [] = ParseError.
Proof. split; vm_compute; reflexivity. Qed.

(*@C10
Refutation without the side conditions: a Signal PDU whose data is not a multiple of four octets corrupts the
PDU that follows it in the packet, because its padding is not skipped. *)
Lemma C10_parse_packet_refuted_pf : exists p q b1 n1 b2 n2,
  serialize Checked p [] 2000 = (b1, Written n1) /\ serialize Checked q [] 2000 = (b2, Written n2) /\
  parse Checked b1 = Parsed [p] /\ parse Checked b2 = Parsed [q] /\ parse Checked (b1 ++ b2) <> Parsed [p; q].
Proof.
  exists bad_signal, sample_ack. do 4 eexists. do 2 (split; [vm_compute; reflexivity|]).
  split; [vm_compute; reflexivity|]. split; [vm_compute; reflexivity|]. vm_compute. discriminate.
Qed.

(** [Keep v l k]: [k] is [l] with the PDUs of a version other than [v] left out. *)
Inductive Keep (v : Z) : list Pdu -> list Pdu -> Prop :=
| Keep_nil : Keep v [] []
| Keep_yes p l k : h_version (pdu_header p) = v -> Keep v l k -> Keep v (p :: l) (p :: k)
| Keep_no p l k : h_version (pdu_header p) <> v -> Keep v l k -> Keep v (p :: l) k.
Lemma Keep_filter v l : Keep v l (filter (fun p => h_version (pdu_header p) =? v) l).
Proof.
  induction l as [|p l IH]; cbn [filter]; [constructor|].
  destruct (Z.eqb_spec (h_version (pdu_header p)) v); [now apply Keep_yes|now apply Keep_no].
Qed.
(*@C11
The version-specific entry points fail exactly as [parse] does, and otherwise return its result without
the PDUs of other versions. *)
Lemma C11_version_filter_pf : forall m i,
  (parse m i = ParseError <-> parse_v6 m i = ParseError) /\ (parse m i = ParseError <-> parse_v7 m i = ParseError) /\
  (forall k, parse_v6 m i = Parsed k -> exists l, parse m i = Parsed l /\ Keep 6 l k) /\
  (forall k, parse_v7 m i = Parsed k -> exists l, parse m i = Parsed l /\ Keep 7 l k) /\
  (forall l, parse m i = Parsed l -> exists k6 k7, parse_v6 m i = Parsed k6 /\ parse_v7 m i = Parsed k7).
Proof.
  intros m i. unfold parse_v6, parse_v7, filter_version.
  destruct (parse m i) as [l| |]; repeat split; intros; try discriminate; try eauto;
  match goal with H : Parsed _ = Parsed _ |- _ => inversion H; subst end; eexists; split; try reflexivity; apply Keep_filter.
Qed.
(*@ex*)
Example C11_example : parse_v6 Checked (wire Checked sample_ack ++ wire Checked sample_collision) = Parsed [sample_collision] /\
  parse_v7 Checked (wire Checked sample_ack ++ wire Checked sample_collision) = Parsed [sample_ack].
Proof. split; vm_compute; reflexivity. Qed.

(** ** C12 *)
Lemma pdu_panic_wrapping i : bytes i -> p_pdu Wrapping i = PPanic ->
  exists h r, p_header i = POk r h /\ h_type h = 26 /\ signal_short r.
Proof.
  intros Hi H. unfold p_pdu, pbind in H. pose proof (SafeP_header i Hi) as Hs.
  destruct (p_header i) as [r h| |] eqn:E; try discriminate; [|contradiction]. destruct Hs as [Hr [Hw _]].
  exists h, r. split; [reflexivity|].
  destruct (Z.eq_dec (h_type h) 26) as [E26|N26].
  - split; [exact E26|]. apply signal_panic; [exact Hr|]. unfold p_body in H. cbv zeta in H. rewrite E26 in H. cbn [Z.eqb Pos.eqb] in H.
    unfold pmap, pbind in H. destruct (p_signal_body r); try discriminate. reflexivity.
  - exfalso. destruct Hw as (_ & _ & Ht & _ & _ & Hl & _). pose proof (Safe_body h Ht Hl N26 r Hr) as Hb.
    destruct (p_body Wrapping h r); try discriminate. contradiction.
Qed.
Lemma header_octet i r h : p_header i = POk r h -> r = skipn 12 i /\ h_type h = nth 2 i 0.
Proof.
  intros H. destruct (p_header_consumes _ _ _ H) as [-> L]. split; [reflexivity|].
  do 12 (destruct i as [|? i]; [exfalso; unfold zlen in L; cbn [length] in L; pose proof (Nat2Z.is_nonneg 0); cbn [skipn] in L; cbn [length Z.of_nat] in L; lia|]).
  clear L. unfold p_header in H. unfold be_u8, be_u16, be_u32, be_u, pbind, pret in H. cbn [length Nat.ltb Nat.leb skipn firstn] in H.
  match type of H with match ?x with _ => _ end = _ => destruct x eqn:E; try discriminate end.
  injection H as _ <-. reflexivity.
Qed.
Lemma signal_short_panics i : bytes i -> (signal_short i <-> let class := u16_at i 8 / 16384 in let data := u16_at i 16 / 8 in
  20 + data <= zlen i /\ (class = 2 /\ data < 4 \/ class = 3 /\ data < 12)).
Proof.
  intros B. cbv zeta. assert (Hd : forall k, 0 <= u16_at i k / 8).
  { intros k. apply Z.div_pos; [|lia]. unfold u16_at. assert (Hn : forall j, 0 <= nth j i 0). 
    { intros j. destruct (nth_in_or_default j i 0) as [X | ->]; [|lia]. unfold bytes in B. rewrite Forall_forall in B. specialize (B _ X). unfold u8 in B. lia. }
    pose proof (Hn k). pose proof (Hn (S k)). lia. }
  split.
  - intros (a & rn & es & tdl & sr & bits & sm & r1 & r2 & r3 & r4 & r5 & r6 & r7 & E1 & E2 & E3 & E4 & E5 & E6 & E7 & L & K).
    do 20 (destruct i as [|? i]; [exfalso; clear - E1 E2 E3 E4 E5 E6 E7; unfold p_entity_id, p_simulation_address, be_u16, be_u32, be_u, pbind, pret in *;
      cbn [length Nat.ltb Nat.leb skipn firstn] in *;
      repeat match goal with H : POk _ _ = POk _ _ |- _ => injection H as <- <-; cbn [length Nat.ltb Nat.leb skipn firstn] in * end; discriminate|]).
    unfold p_entity_id, p_simulation_address, be_u16, be_u32, be_u, pbind, pret in *. cbn [length Nat.ltb Nat.leb skipn firstn] in *.
    repeat match goal with H : POk _ _ = POk _ _ |- _ => injection H as <- <-; cbn [length Nat.ltb Nat.leb skipn firstn] in * end.
    unfold be_val in *. cbn [fold_left] in *. rewrite ?Z.mul_0_l, ?Z.add_0_l in *. unfold u16_at. cbn [nth]. rewrite !zlen_cons. split; [lia|exact K].
  - intros [L K]. pose proof (Hd 16%nat).
    do 20 (destruct i as [|? i]; [exfalso; revert L; unfold zlen; cbn [length]; clear K; set (q := u16_at _ _ / 8) in *; lia|]).
    rewrite !zlen_cons in L. unfold u16_at in L, K. cbn [nth] in L, K.
    unfold signal_short, p_entity_id, p_simulation_address, be_u16, be_u32, be_u, pbind, pret. cbn [length Nat.ltb Nat.leb skipn firstn].
    do 14 eexists. do 7 (split; [reflexivity|]). unfold be_val. cbn [fold_left]. rewrite ?Z.mul_0_l, ?Z.add_0_l. split; [lia|exact K].
Qed.
Lemma nth_skipn_z n k (i : list Z) : nth k (skipn n i) 0 = nth (n + k) i 0.
Proof. revert i. induction n as [|n IH]; intros [|x i]; cbn [skipn Nat.add nth]; auto. now destruct k. Qed.
Lemma short_signal_spec i r h : bytes i -> p_header i = POk r h -> (h_type h = 26 /\ signal_short r <-> short_signal i).
Proof.
  intros B H. destruct (header_octet _ _ _ H) as [-> ->]. destruct (p_header_consumes _ _ _ H) as [_ L].
  assert (B' : bytes (skipn 12 i)) by (rewrite <- (firstn_skipn 12 i) in B; apply Forall_app in B; tauto).
  rewrite (signal_short_panics _ B'). unfold short_signal. cbv zeta. unfold u16_at. rewrite !nth_skipn_z. cbn [Nat.add].
  split; intros (X & Y & Z); repeat split; try assumption; lia.
Qed.
Lemma short_signal_panic m i : bytes i -> short_signal i -> p_pdu m i = PPanic.
Proof.
  intros B S. assert (L : 12 <= zlen i).
  { destruct S as (_ & L & K). assert (0 <= u16_at i 28 / 8); [|lia]. apply Z.div_pos; [|lia]. unfold u16_at.
    assert (Hn : forall j, 0 <= nth j i 0). 
    { intros j. destruct (nth_in_or_default j i 0) as [X | ->]; [|lia]. unfold bytes in B. rewrite Forall_forall in B. specialize (B _ X). unfold u8 in B. lia. }
    pose proof (Hn 28%nat). pose proof (Hn 29%nat). lia. }
  destruct (p_header_long i L) as [h E]. destruct (proj2 (short_signal_spec _ _ _ B E) S) as [T (a & rn & es & tdl & sr & bits & sm & r1 & r2 & r3 & r4 & r5 & r6 & r7 & E1 & E2 & E3 & E4 & E5 & E6 & E7 & LL & K)].
  unfold p_pdu, pbind. rewrite E. unfold p_body. cbv zeta. rewrite T. cbn [Z.eqb Pos.eqb]. unfold pmap, pbind, p_signal_body, pbind.
  rewrite E1, E2, E3, E4, E5, E6, E7. unfold take. destruct (Z.ltb_spec (zlen r7) (bits / 8)) as [|_]; [lia|].
  set (data := firstn (Z.to_nat (bits / 8)) r7).
  assert (Hd : zlen data <= Z.max 0 (bits / 8)). { unfold data, zlen. pose proof (firstn_le_length (Z.to_nat (bits / 8)) r7). lia. }
  assert (Hb : 0 <= bits / 8).
  { assert (B2 : bytes (skipn 12 i)) by (rewrite <- (firstn_skipn 12 i) in B; apply Forall_app in B; tauto).
    pose proof (Safe_entity_id _ B2) as X. rewrite E1 in X. destruct X as [X _]. pose proof (Safe_be_u16 _ X) as X2. rewrite E2 in X2. destruct X2 as [X2 _].
    pose proof (Safe_be_u16 _ X2) as X3. rewrite E3 in X3. destruct X3 as [X3 _]. pose proof (Safe_be_u16 _ X3) as X4. rewrite E4 in X4. destruct X4 as [X4 _].
    pose proof (Safe_be_u32 _ X4) as X5. rewrite E5 in X5. destruct X5 as [X5 _]. pose proof (Safe_be_u16 _ X5) as X6. rewrite E6 in X6. destruct X6 as [_ X6].
    unfold u16 in X6. apply Z.div_pos; lia. }
  unfold p_encoding_scheme. cbv zeta. destruct K as [[-> K]|[-> K]]; unfold slice_u32, pbind.
  - destruct (Z.ltb_spec (zlen data) 4); [reflexivity|lia].
  - destruct (Z.ltb_spec (zlen data) 4); [reflexivity|]. destruct (Z.ltb_spec (zlen data) 8); [reflexivity|]. destruct (Z.ltb_spec (zlen data) 12); [reflexivity|lia].
Qed.
Lemma SplitPanic_Reads {A} (p : bparser A) i : SplitPanic p i <-> exists l rest, Reads p i l rest /\ p rest = PPanic.
Proof.
  split.
  - induction 1 as [i H|i r a H _ (l & rest & R & P)]; [exists [], i; split; [constructor|exact H]|]. exists (a :: l), rest. split; [econstructor; eassumption|exact P].
  - intros (l & rest & R & P). induction R as [i|i r a l rest H R IH]; [constructor; exact P|]. eapply SplitPanic_later; [exact H|]. auto.
Qed.
Lemma Reads_bytes {A} (p : bparser A) i l rest : Ext p -> bytes i -> Reads p i l rest -> bytes rest.
Proof.
  intros X B R. induction R as [|i r a l rest H R IH]; [exact B|]. apply IH. destruct (X _ _ _ H) as [[c ->] _]. apply Forall_app in B. tauto.
Qed.

(*@C12
In a build without overflow checks, parsing any octets ends with a result or an error, with one exception, described exactly: it panics if and
only if, after some PDUs have been read, the rest of the octets starts with a Signal PDU of encoding class 2 or 3 that announces less data than
the 4 or 12 octets the class calls for. *)
Lemma C12_parse_panics_iff_pf : forall i, bytes i ->
  (parse Wrapping i = ParsePanic <-> exists l rest, Reads (p_pdu Wrapping) i l rest /\ short_signal rest).
Proof.
  intros i Hi. rewrite parse_panic_iff, SplitPanic_Reads. split; intros (l & rest & R & H); exists l, rest; (split; [exact R|]);
    pose proof (Reads_bytes _ _ _ _ (Ext_pdu Wrapping) Hi R) as B.
  - destruct (pdu_panic_wrapping rest B H) as (h & r & E & T & S). exact (proj1 (short_signal_spec _ _ _ B E) (conj T S)).
  - exact (short_signal_panic _ _ B H).
Qed.
(*@C12
In a build with overflow checks such a Signal makes [parse] panic too. *)
Lemma C12_signal_panics_everywhere_pf : forall m i l rest, bytes i -> Reads (p_pdu m) i l rest -> short_signal rest -> parse m i = ParsePanic.
Proof.
  intros m i l rest Hi R S. rewrite parse_panic_iff, SplitPanic_Reads. exists l, rest. split; [exact R|].
  exact (short_signal_panic _ _ (Reads_bytes _ _ _ _ (Ext_pdu m) Hi R) S).
Qed.
(*@ex*)
Example C12_example : forall body, bytes body -> zlen body = 20 ->
  parse Wrapping ([7; 1; 15; 5; 0; 0; 0; 0; 0; 32; 0; 0] ++ body) <> ParsePanic.
Proof.
  intros body Hb Hl H. apply parse_panic_iff in H.
  do 20 (destruct body as [|? body]; [discriminate|]). destruct body; [|exfalso; revert Hl; clear; unfold zlen; cbn [length]; lia].
  inversion H as [i H1|i r a H1 H2]; subst; [discriminate|].
  vm_compute in H1. inversion H1; subst. inversion H2; subst; discriminate.
Qed.

(*@C12
Refutation: these 33 octets, a Signal PDU of class 2 announcing 8 bits of data, make [parse] panic in every
build mode. *)
Lemma C12_parse_no_panic_refuted_pf : forall m, exists i, bytes i /\ zlen i = 33 /\ parse m i = ParsePanic.
Proof.
  intros m. exists (sample_packet 26 (zeros 8 ++ [0x80; 0; 0; 0; 0; 0; 0; 0; 0; 8; 0; 1; 0xFF])).
  split; [|split; [reflexivity|destruct m; vm_compute; reflexivity]].
  unfold bytes. repeat constructor; vm_compute; (discriminate || reflexivity).
Qed.

(*@C12
In a build with overflow checks more octet strings panic; for instance a Transmitter PDU whose variable
parameter record announces a length below its own header. *)
Lemma C12_parse_overflow_panic_refuted_pf : exists i, bytes i /\ parse Checked i = ParsePanic /\ parse Wrapping i <> ParsePanic.
Proof.
  exists (sample_packet 25 (zeros 18 ++ [0; 1] ++ zeros 72 ++ zeros 8)).
  split; [unfold bytes; repeat constructor; vm_compute; (discriminate || reflexivity)|]. split; [vm_compute; reflexivity|vm_compute; discriminate].
Qed.

Lemma pdu_panic_any m i : bytes i -> p_pdu m i = PPanic ->
  exists h r, p_header i = POk r h /\ In (h_type h) arithmetic_types.
Proof.
  intros Hi H. unfold p_pdu, pbind in H. pose proof (SafeP_header i Hi) as Hs.
  destruct (p_header i) as [r h| |] eqn:E; try discriminate; [|contradiction]. destruct Hs as [Hr [Hw _]].
  exists h, r. split; [reflexivity|].
  destruct (in_dec Z.eq_dec (h_type h) arithmetic_types) as [|N]; [assumption|].
  exfalso. destruct Hw as (_ & _ & Ht & _ & _ & Hl & _). pose proof (Safe_body_any m h Ht Hl N r Hr) as Hb.
  destruct (p_body m h r); try discriminate. contradiction.
Qed.
(*@C12
In any build mode, a panic requires that, after some PDUs have been read, the rest of the octets starts with a PDU of one of six types: Transmitter, Signal,
AggregateState, TransferOwnership, Record-R or SetRecord-R. *)
Lemma C12_parse_panic_types_pf : forall m i, bytes i -> parse m i = ParsePanic ->
  exists l rest, Reads (p_pdu m) i l rest /\ In (nth 2 rest 0) [25; 26; 33; 35; 63; 64].
Proof.
  intros m i Hi H. rewrite parse_panic_iff, SplitPanic_Reads in H. destruct H as (l & rest & R & P). exists l, rest. split; [exact R|].
  destruct (pdu_panic_any m rest (Reads_bytes _ _ _ _ (Ext_pdu m) Hi R) P) as (h & r & E & T). destruct (header_octet _ _ _ E) as [_ <-]. exact T.
Qed.

(** ** C13 *)
(*@C13
[parse] fails exactly when the first PDU cannot be parsed, that is when there are fewer than twelve octets
or the body parser selected by the first header rejects what follows the header. *)
Lemma C13_parse_error_iff_pf : forall m i, parse m i = ParseError <->
  zlen i < 12 \/ exists h k, p_header i = POk (skipn 12 i) h /\ p_body m h (skipn 12 i) = PErr k.
Proof.
  intros m i. rewrite parse_error_iff. unfold p_pdu, pbind. split.
  - intros [k H]. destruct (p_header i) as [r h|k'|] eqn:E.
    + right. destruct (p_header_consumes _ _ _ E) as [-> _]. exists h. destruct (p_body m h (skipn 12 i)) as [| k''|]; try discriminate.
      exists k''. auto.
    + left. now apply p_header_eof in E.
    + discriminate.
  - intros [H|(h & k & H1 & H2)].
    + exists Eof. now rewrite p_header_short.
    + exists k. now rewrite H1, H2.
Qed.
(*@ex*)
Example C13_error_example : parse Checked [7; 1; 15] = ParseError /\ parse Checked (sample_packet 15 (zeros 19)) = ParseError /\
  parse Checked (sample_packet 15 (zeros 20)) <> ParseError.
Proof. split; [|split]; vm_compute; (reflexivity || discriminate). Qed.

(*@C13
On success the result is the non-empty, longest run of PDUs: [Split] reads one PDU after the other and
stops where no further PDU can be parsed. *)
Lemma C13_parse_longest_run_pf : forall m i l, parse m i = Parsed l <-> l <> [] /\ exists rest, Split (p_pdu m) i l rest.
Proof. exact parse_iff. Qed.
(*@ex*)
Example C13_run_example : parse Checked (wire Checked sample_ack ++ wire Checked sample_collision ++ [7; 1]) = Parsed [sample_ack; sample_collision].
Proof. vm_compute. reflexivity. Qed.

(** ** C14 *)
(*@C14
If a PDU is parsed from an input leaving a rest, the rest is a suffix of the input, and after appending any
octets the same PDU is parsed and the rest has those octets appended. *)
Lemma C14_trailing_octets_pf : forall m i r p, p_pdu m i = POk r p ->
  (exists used, i = used ++ r) /\ forall x, p_pdu m (i ++ x) = POk (r ++ x) p.
Proof. intros m i r p H. exact (Ext_pdu m i r p H). Qed.
Lemma Split_extend m i l : Split (p_pdu m) i l [] -> forall x l' rest, Split (p_pdu m) x l' rest -> Split (p_pdu m) (i ++ x) (l ++ l') rest.
Proof.
  remember [] as e eqn:Ee. induction 1 as [i k H|i r a l rest H Hs IH]; intros x l' rest' Hx; subst.
  - exact Hx.
  - cbn [app]. econstructor; [apply (Ext_pdu m _ _ _ H)|]. now apply IH.
Qed.
(*@C14
Packet level: if an input is a whole number of PDUs, appending another parseable input yields the
concatenation of both results. *)
Lemma C14_parse_append_pf : forall m i l x l',
  Split (p_pdu m) i l [] -> parse m i = Parsed l -> parse m x = Parsed l' -> parse m (i ++ x) = Parsed (l ++ l').
Proof.
  intros m i l x l' Hs Hp Hx. apply parse_iff in Hx. destruct Hx as [Hne [rest Hx]]. apply parse_iff. split.
  - destruct l; [exact Hne|discriminate].
  - exists rest. eapply Split_extend; eassumption.
Qed.
(*@ex*)
Example C14_append_example : Split (p_pdu Checked) (wire Checked sample_ack) [sample_ack] [].
Proof. econstructor; [vm_compute; reflexivity|]. econstructor. reflexivity. Qed.

(** ** C15 *)
Definition with_length_field (h : PduHeader) (n : Z) : PduHeader :=
  MkPduHeader (h_version h) (h_exercise h) (h_type h) (h_family h) (h_time h) n (h_status h) (h_padding h).
Lemma p_other_consumes ty len i r x : p_other_body ty len i = POk r x -> zlen i - zlen r = Z.max 0 (len - 12).
Proof.
  unfold p_other_body. unfold pbind at 1.
  match goal with |- match ?x with _ => _ end = _ -> _ => destruct x as [r3 ids| |] eqn:Ei end; try discriminate.
  assert (r3 = i).
  { revert Ei. unfold peek, pbind, pret. destruct (other_peeks_one ty); [destruct (p_entity_id i); try discriminate; intros HH; injection HH; congruence|].
    destruct (other_peeks_two ty); [|intros HH; injection HH; congruence].
    destruct (p_entity_id i) as [q ?| |]; try discriminate. destruct (p_entity_id q); try discriminate. intros HH; injection HH; congruence. }
  subst r3. unfold pbind, take. destruct (Z.ltb_spec (zlen i) (Z.max 0 (len - 12))); [discriminate|].
  unfold pret. intros E. assert (r = skipn (Z.to_nat (Z.max 0 (len - 12))) i) as -> by congruence. unfold zlen in *. rewrite skipn_length. lia.
Qed.
(*@C15
For the types the library does not implement, a parsed PDU occupies exactly the octets the length field
announces (twelve if it announces fewer). *)
Lemma C15_framing_other_pf : forall m i r p, p_pdu m i = POk r p -> other_type (h_type (pdu_header p)) ->
  zlen i - zlen r = Z.max 12 (h_length (pdu_header p)).
Proof.
  intros m i r p H Ho. unfold p_pdu, pbind in H. destruct (p_header i) as [r1 h| |] eqn:E; try discriminate.
  destruct (p_body m h r1) as [r2 b| |] eqn:E2; try discriminate. inversion H; subst. cbn [pdu_header] in *.
  apply p_header_consumes in E. destruct E as [_ E]. rewrite p_body_other in E2 by assumption.
  unfold pmap, pbind in E2. destruct (p_other_body (h_type h) (h_length h) r1) as [r3 x| |] eqn:E3; try discriminate.
  apply p_other_consumes in E3. unfold pret in E2. inversion E2; subst. lia.
Qed.
(*@C15
A PDU of a type in [exact_types] whose header was finalized by the library is framed by its length field:
parsing its octets, whatever follows them, consumes exactly as many octets as the field announces. *)
Lemma C15_framing_exact_pf : forall m h b ts p rest, wf_PduHeader h -> wf_body b -> u32 ts ->
  finalize m h b ts = WOk [] p -> fits_Pdu p -> size_pdu p <= 65500 -> In (body_type b) exact_types ->
  exists bs, w_pdu m p = WOk bs (zlen bs) /\ zlen bs = h_length (pdu_header p) /\ p_pdu m (bs ++ rest) = POk rest p.
Proof.
  intros m h b ts p rest Wh Wb Ht E Hf Hs Hx.
  pose proof (finalize_wf m h b ts p Wh Wb Ht E) as Hw.
  destruct (C08_finalize_pf m h b ts p Wb E) as (Eb & _ & _ & _ & (n & _ & _ & El & _) & _).
  rewrite (pdu_length_ok m p Hw Hf Hs) in El. assert (Hl : claimed_length p = h_length (pdu_header p)) by congruence.
  destruct (exact_excess b Hx) as [Hr Hc]. unfold claimed_length in Hl. rewrite Eb, Hc in Hl.
  destruct Hw as [Wh' Wb']. destruct Hf as [Fh Fb]. pose proof (excess_bounds _ _ Wb' Fb Hs) as [Hrr _].
  destruct (RT_pdu m p) as (bs & Ew & Hbs & Hp); [split; assumption|split; assumption|unfold size_pdu; lia|].
  exists bs. rewrite Ew. rewrite Eb, Hr, Z.add_0_r, Hbs. split; [reflexivity|]. split; [lia|apply Hp].
Qed.
(*@C15
In general the claim is false: for every implemented type the octets consumed do not depend on the length
field at all: changing the field changes nothing but the field. *)
Lemma C15_length_field_ignored_pf : forall m h n i, In (h_type h) implemented_types ->
  p_body m (with_length_field h n) i = p_body m h i.
Proof.
  intros m h n i Hin. destruct h as [v e ty f t l s pad]. unfold with_length_field.
  cbn [h_type h_version h_exercise h_family h_time h_status h_padding] in *.
  unfold implemented_types in Hin. cbn [In] in Hin.
  repeat (destruct Hin as [<-|Hin]; [reflexivity|]). contradiction.
Qed.
(*@C15
Refutation: an Acknowledge PDU announcing 40 octets is parsed from 32, and the eight octets left over are
taken for the start of the next PDU. *)
Lemma C15_framing_refuted_pf : exists i p r, bytes i /\ p_pdu Checked i = POk r p /\ zlen i - zlen r <> h_length (pdu_header p) /\
  h_length (pdu_header p) = zlen i.
Proof.
  exists ([7; 1; 15; 5; 0; 0; 0; 0; 0; 40; 0; 0] ++ zeros 28). do 2 eexists.
  split; [unfold bytes; repeat constructor; vm_compute; (discriminate || reflexivity)|].
  split; [vm_compute; reflexivity|]. split; [vm_compute; discriminate|vm_compute; reflexivity].
Qed.

(** ** C38 *)
Definition entity_at (l : list Z) (k : nat) : EntityId :=
  MkEntityId (MkSimulationAddress (u16_at l k) (u16_at l (k + 2))) (u16_at l (k + 4)).

Definition id_at (l : list Z) (o : option nat) : option EntityId := option_map (entity_at l) o.

Lemma pbind_ok {A B} (p : bparser A) (f : A -> bparser B) i r b : pbind p f i = POk r b -> exists r1 a, p i = POk r1 a /\ f a r1 = POk r b.
Proof. unfold pbind. destruct (p i) as [r1 a| |]; try discriminate. eauto. Qed.
Ltac pinv := repeat match goal with
  | H : pbind _ _ _ = POk _ _ |- _ => apply pbind_ok in H; let a := fresh "a" in let r := fresh "r" in let E := fresh "E" in destruct H as (r & a & E & H)
  | H : (match ?x with _ => _ end) _ = POk _ _ |- _ => destruct x; try discriminate
  | H : pret _ _ = POk _ _ |- _ => unfold pret in H; injection H; clear H; intros; subst
  end.

Lemma skipn_add {A} (l : list A) : forall k n, skipn n (skipn k l) = skipn (k + n) l.
Proof.
  induction l as [|x l IH]; intros k n; [now rewrite !skipn_nil|]. destruct k as [|k]; [reflexivity|]. cbn [skipn Nat.add]. apply IH.
Qed.
Lemma nth_skipn {A} (d : A) (l : list A) : forall k j, nth j (skipn k l) d = nth (k + j) l d.
Proof.
  induction l as [|x l IH]; intros k j; [rewrite skipn_nil; rewrite !nth_overflow by (cbn; lia); reflexivity|].
  destruct k as [|k]; [reflexivity|]. cbn [skipn Nat.add nth]. apply IH.
Qed.
Lemma be_u16_at l k r v : be_u16 (skipn k l) = POk r v -> v = u16_at l k /\ r = skipn (k + 2) l.
Proof.
  unfold be_u16, be_u. destruct (Nat.ltb_spec (length (skipn k l)) 2) as [|H]; [discriminate|].
  intros E. assert (Hv : v = be_val (firstn 2 (skipn k l))) by congruence. assert (Hr : r = skipn 2 (skipn k l)) by congruence.
  split; [|rewrite Hr, skipn_add; f_equal; lia].
  rewrite Hv. unfold u16_at. rewrite skipn_length in H.
  assert (Hn : forall j, nth j (skipn k l) 0 = nth (k + j) l 0) by (intros; apply nth_skipn).
  pose proof (Hn 0%nat) as H0. pose proof (Hn 1%nat) as H1. rewrite Nat.add_0_r in H0. rewrite Nat.add_1_r in H1.
  rewrite <- H0, <- H1. clear -H. rewrite <- skipn_length in H. destruct (skipn k l) as [|x [|y t]]; cbn [length] in H; try lia.
  cbn [firstn nth]. unfold be_val. cbn. lia.
Qed.
Lemma be_u_at n l k r v : be_u n (skipn k l) = POk r v -> r = skipn (k + n) l.
Proof. unfold be_u. destruct (Nat.ltb_spec (length (skipn k l)) n); [discriminate|]. intros E. rewrite <- skipn_add. congruence. Qed.
Lemma p_entity_id_at l k r e : p_entity_id (skipn k l) = POk r e -> e = entity_at l k /\ r = skipn (k + 6) l.
Proof.
  unfold p_entity_id, p_simulation_address. intros H. pinv.
  repeat match goal with E : be_u16 (skipn _ l) = POk _ _ |- _ => apply be_u16_at in E; destruct E; subst end.
  unfold entity_at. replace (k + 4)%nat with (k + 2 + 2)%nat by lia. split; [reflexivity|f_equal; lia].
Qed.
Ltac track := repeat match goal with
  | E : p_entity_id (skipn _ _) = POk _ _ |- _ => apply p_entity_id_at in E; destruct E; subst
  | E : be_u16 (skipn _ _) = POk _ _ |- _ => apply be_u_at in E; subst
  | E : be_f32 (skipn _ _) = POk _ _ |- _ => apply be_u_at in E; subst
  | E : be_u32 (skipn _ _) = POk _ _ |- _ => apply be_u_at in E; subst
  end; cbn [Nat.add] in *.
Lemma pmap_ok {A B} (f : A -> B) (p : bparser A) i r b : pmap f p i = POk r b -> exists a, p i = POk r a /\ b = f a.
Proof. unfold pmap. intros H. pinv. eauto. Qed.
Lemma first_id m h l r b : In (h_type h) (no_receiver_types ++ [23]) -> p_body m h (skipn 12 l) = POk r b ->
  orig_body b = Some (entity_at l 12) /\ (h_type h <> 23 -> recv_body b = None).
Proof.
  intros Hin. unfold p_body. cbv zeta. cbn [In app no_receiver_types] in Hin.
  repeat (destruct Hin as [Hin|Hin]); try contradiction; rewrite <- Hin; cbn [Z.eqb Pos.eqb]; intros H; apply pmap_ok in H; destruct H as (x & H & ->);
  cbn [orig_body recv_body].
  - unfold p_entity_state_body in H. pinv. track. split; reflexivity.
  - unfold p_transmitter_body in H. pinv. track. split; reflexivity.
  - unfold p_signal_body in H. pinv. track. split; reflexivity.
  - unfold p_iff_body in H. pinv. track. split; reflexivity.
  - unfold p_underwater_acoustic_body in H. pinv. track. split; reflexivity.
  - unfold p_sees_body in H. pinv. track. split; reflexivity.
  - unfold p_is_group_of_body in H. pinv. track. split; reflexivity.
  - unfold p_entity_state_update_body in H. pinv. track. split; reflexivity.
  - unfold p_emission_body in H. pinv. track. split; [reflexivity|congruence].
Qed.
Ltac two b := unfold b in *; pinv; track; split; reflexivity.
Lemma pair_ids m h l r b : In (h_type h) pair_types -> p_body m h (skipn 12 l) = POk r b ->
  orig_body b = Some (entity_at l 12) /\ recv_body b = Some (entity_at l 18).
Proof.
  intros Hin. unfold p_body. cbv zeta. cbn [In app pair_types] in Hin.
  repeat (destruct Hin as [Hin|Hin]); try contradiction; rewrite <- Hin; cbn [Z.eqb Pos.eqb]; intros H; apply pmap_ok in H; destruct H as (x & H & ->);
  cbn [orig_body recv_body].
  - two p_fire_body.
  - two p_detonation_body.
  - two p_collision_body.
  - two p_service_request_body.
  - two p_resupply_offer_body.
  - two p_resupply_received_body.
  - two p_resupply_cancel_body.
  - two p_create_entity_body.
  - two p_remove_entity_body.
  - two p_start_resume_body.
  - two p_stop_freeze_body.
  - two p_acknowledge_body.
  - two p_action_request_body.
  - two p_action_response_body.
  - two p_data_query_body.
  - two p_set_data_body.
  - two p_data_body.
  - two p_event_report_body.
  - two p_comment_body.
  - two p_transfer_ownership_body.
  - two p_is_part_of_body.
  - two p_create_entity_r_body.
  - two p_remove_entity_r_body.
  - two p_start_resume_r_body.
  - two p_stop_freeze_r_body.
  - two p_acknowledge_r_body.
  - two p_action_request_r_body.
  - two p_action_response_r_body.
  - two p_data_query_r_body.
  - two p_set_data_r_body.
  - two p_data_r_body.
  - two p_event_report_r_body.
  - two p_comment_r_body.
  - two p_record_r_body.
  - two p_set_record_r_body.
  - two p_record_query_r_body.
  - two p_collision_elastic_body.
Qed.


(*@C38
For every input that parses, [originator] is the entity identifier found at the offset the standard assigns
to the originating entity of that PDU type, and [receiver] the one at the offset of the receiving entity
([endpoints]); both are [None] for the types without such an entity, including every type the crate does
not implement.  (23, Electromagnetic Emission, is the one type whose receiver is not at a fixed offset: next theorem.) *)
Lemma C38_endpoints_pf : forall m l r p, p_pdu m l = POk r p ->
  originator p = (if h_type (pdu_header p) =? 23 then Some (entity_at l 12) else id_at l (fst (endpoints (h_type (pdu_header p))))) /\
  (h_type (pdu_header p) <> 23 -> receiver p = id_at l (snd (endpoints (h_type (pdu_header p))))).
Proof.
  intros m l r p H. unfold p_pdu in H. pinv. apply p_header_consumes in E. destruct E as [-> _].
  cbn [pdu_header]. unfold originator, receiver. cbn [pdu_body].
  destruct (in_dec Z.eq_dec (h_type a) (no_receiver_types ++ [23])) as [Hi|Hi].
  - destruct (first_id _ _ _ _ _ Hi E0) as [H1 H2]. cbn [In no_receiver_types app] in Hi.
    repeat (destruct Hi as [Hi|Hi]); try contradiction; rewrite <- Hi in *; (split; [exact H1|exact H2]).
  - destruct (in_dec Z.eq_dec (h_type a) pair_types) as [Hj|Hj].
    + destruct (pair_ids _ _ _ _ _ Hj E0) as [H1 H2]. cbn [In pair_types] in Hj. clear Hi.
      repeat (destruct Hj as [Hj|Hj]); try contradiction; rewrite <- Hj in *; (split; [exact H1|intros _; exact H2]).
    + destruct (in_dec Z.eq_dec (h_type a) [9; 10; 24; 27; 33; 72]) as [Hk|Hk].
      * cbn [In] in Hk. clear Hi Hj. unfold p_body in E0. cbv zeta in E0.
        destruct Hk as [Hk|[Hk|[Hk|[Hk|[Hk|[Hk|[]]]]]]]; rewrite <- Hk in *; cbn [Z.eqb Pos.eqb] in *; apply pmap_ok in E0; destruct E0 as (x & H & ->);
        cbn [orig_body recv_body].
        -- two p_repair_complete_body.
        -- two p_repair_response_body.
        -- two p_designator_body.
        -- two p_receiver_body.
        -- split; reflexivity.
        -- split; reflexivity.
      * assert (Ho : other_type (h_type a)).
        { intros Hin. cbn [In implemented_types app no_receiver_types pair_types] in *. intuition. }
        rewrite p_body_other in E0 by exact Ho. apply pmap_ok in E0. destruct E0 as (x & H & ->). cbn [orig_body recv_body].
        unfold p_other_body in H.
        assert (E1 : forall t, existsb (Z.eqb (h_type a)) t = false <-> ~ In (h_type a) t).
        { intros t. rewrite <- Bool.not_true_iff_false, existsb_exists. split; intros Hn Hx; apply Hn.
          - exists (h_type a). split; [exact Hx|apply Z.eqb_refl].
          - destruct Hx as (y & Hy & Ey). apply Z.eqb_eq in Ey. now rewrite Ey. }
        replace (other_peeks_one (h_type a)) with false in H by (symmetry; apply E1; intros Hx; apply Ho; cbn [In implemented_types] in *; intuition).
        replace (other_peeks_two (h_type a)) with false in H by (symmetry; apply E1; intros Hx; apply Ho; cbn [In implemented_types] in *; intuition).
        pinv. unfold endpoints.
        rewrite (proj2 (E1 no_receiver_types)) by (intros Hx; apply Hi; apply in_or_app; auto).
        rewrite (proj2 (E1 pair_types)) by assumption. cbn [In] in Hk.
        repeat match goal with |- context [h_type a =? ?k] => replace (h_type a =? k) with false by (symmetry; apply Z.eqb_neq; intros Hx; rewrite Hx in *; cbn [In app no_receiver_types] in *; intuition) end.
        split; reflexivity.
Qed.

(*@C38
Electromagnetic Emission: the receiver is the first track/jam target of the first beam of the first emitter
system, when there is one. *)
Lemma C38_emission_receiver_pf : forall m l r p, p_pdu m l = POk r p -> h_type (pdu_header p) = 23 ->
  exists x, pdu_body p = BElectromagneticEmission x /\
  receiver p = (match EE_systems x with
                | MkEmitterSystem _ _ _ _ (MkBeam _ _ _ _ _ _ _ _ (t :: _) :: _) :: _ => Some (tj_entity t)
                | _ => None end).
Proof.
  intros m l r p H Ht. unfold p_pdu in H. pinv. cbn [pdu_header pdu_body] in *. unfold receiver. cbn [pdu_body].
  unfold p_body in E0. rewrite Ht in E0. cbn [Z.eqb Pos.eqb] in E0. apply pmap_ok in E0. destruct E0 as (x & _ & ->).
  exists x. split; [reflexivity|]. cbn [recv_body]. unfold recv_emission.
  destruct (EE_systems x) as [|[? ? ? ? [|[? ? ? ? ? ? ? ? [|? ?]] ?]] ?]; reflexivity.
Qed.
(*@ex*)
Example C38_ex : exists p r, p_pdu Checked (sample_packet 15 (zeros 20) ++ [1; 2; 3]) = POk r p /\ originator p <> None /\ receiver p <> None.
Proof. do 2 eexists. split; [vm_compute; reflexivity|]. split; vm_compute; discriminate. Qed.

(** ** C40 *)

(** ** C40 *)
Lemma header_length_at i r h : p_header i = POk r h -> h_length h = u16_at i 8 /\ h_type h = nth 2 i 0.
Proof.
  intros H. destruct (p_header_consumes _ _ _ H) as [_ Hl]. pose proof (zlen_nonneg r). unfold zlen in *.
  do 12 (destruct i as [|? i]; [exfalso; cbn [length] in Hl; lia|]).
  unfold p_header, p_status, pbind, pret, be_u8, be_u16, be_u32, be_u in H. cbn [length Nat.ltb Nat.leb skipn firstn] in H.
  match type of H with context [if ?b then _ else _] => destruct b end; [|match type of H with context [if ?b then _ else _] => destruct b end; [|match type of H with context [if ?b then _ else _] => destruct b end]];
  cbn [length Nat.ltb Nat.leb skipn firstn] in H;
  injection H as _ <-; cbn [h_length h_type]; unfold u16_at; cbn [nth]; unfold be_val; cbn; split; lia.
Qed.

Lemma skip_body_cases n r : p_skip_body n r = (if zlen r <? n - 12 then PErr Eof else POk (skipn (Z.to_nat (Z.max 0 (n - 12))) r) (firstn (Z.to_nat (Z.max 0 (n - 12))) r)).
Proof.
  unfold p_skip_body, take. pose proof (zlen_nonneg r).
  destruct (Z.ltb_spec (zlen r) (n - 12)) as [H1|H1]; destruct (Z.ltb_spec (zlen r) (Z.max 0 (n - 12))) as [H2|H2]; try lia; reflexivity.
Qed.
Lemma u16_at_u16 i k : bytes i -> u16 (u16_at i k).
Proof.
  intros H. unfold bytes in H. assert (Hn : forall j, u8 (nth j i 0)).
  { intros j. destruct (nth_in_or_default j i 0) as [Hi| ->]; [|unfold u8; lia]. rewrite Forall_forall in H. now apply H. }
  pose proof (Hn k). pose proof (Hn (S k)). unfold u16_at, u8, u16 in *. lia.
Qed.
(*@C40
[parse_header], exactly, on every octet sequence: fewer than twelve octets are reported as an insufficient
header with their number; a body cut short is reported with the octets the length field announces for
it and the octets there are; otherwise the header is returned. *)
Lemma C40_parse_header_pf : forall i, bytes i ->
  (zlen i < 12 -> parse_header i = HInsufficientHeader (zlen i)) /\
  (12 <= zlen i < u16_at i 8 -> parse_header i = HInsufficientPdu (u16_at i 8 - 12) (zlen i - 12)) /\
  (Z.max 12 (u16_at i 8) <= zlen i -> exists h r, parse_header i = HParsed h /\ p_header i = POk r h).
Proof.
  intros i Hb. pose proof (u16_at_u16 i 8 Hb) as Hu. pose proof (zlen_nonneg i). split; [|split].
  - intros H1. unfold parse_header. rewrite p_header_short by exact H1. rewrite Z.mod_small by lia. reflexivity.
  - intros H1. destruct (p_header_long i) as [h E]; [lia|]. destruct (header_length_at _ _ _ E) as [Hl _].
    destruct (p_header_consumes _ _ _ E) as [_ Hc].
    unfold parse_header. rewrite E, Hl, skip_body_cases.
    destruct (Z.ltb_spec (zlen (skipn 12 i)) (u16_at i 8 - 12)); [|lia]. unfold u16 in Hu.
    rewrite Z.mod_small by (pose proof (zlen_nonneg (skipn 12 i)); lia). f_equal. lia.
  - intros H1. destruct (p_header_long i) as [h E]; [lia|]. destruct (header_length_at _ _ _ E) as [Hl _].
    destruct (p_header_consumes _ _ _ E) as [_ Hc]. exists h, (skipn 12 i). split; [|exact E].
    unfold parse_header. rewrite E, Hl, skip_body_cases.
    destruct (Z.ltb_spec (zlen (skipn 12 i)) (u16_at i 8 - 12)); [lia|reflexivity].
Qed.
(*@C40
The header returned by [parse_header] is the one full parsing gives the PDU. *)
Lemma C40_agrees_with_full_parsing_pf : forall m i h p, parse_header i = HParsed h -> parse_pdu m i = Parsed p -> pdu_header p = h.
Proof.
  intros m i h p. unfold parse_header, parse_pdu, p_pdu. destruct (p_header i) as [r h'|[]|] eqn:E; try discriminate.
  destruct (p_skip_body (h_length h') r) as [? ?|[]|]; try discriminate. intros H1. assert (h' = h) as -> by congruence.
  unfold pbind at 1. rewrite E. unfold pbind, pret. destruct (p_body m h r) as [r2 b| |]; try discriminate. intros H2.
  assert (p = MkPdu h b) as -> by congruence. reflexivity.
Qed.
Lemma p_header_skip_consumes i r h : p_header_skip i = POk r h -> zlen r < zlen i.
Proof.
  unfold p_header_skip. intros H. pinv. apply p_header_consumes in E. destruct E as [_ E].
  unfold p_skip_body, take in E0. destruct (_ <? _) in E0; [discriminate|]. assert (r = skipn (Z.to_nat (Z.max 0 (h_length h - 12))) r0) as -> by congruence.
  unfold zlen in *. rewrite skipn_length. lia.
Qed.
Lemma parse_header_skip i h : (parse_header i = HParsed h <-> exists r, p_header_skip i = POk r h).
Proof.
  unfold parse_header, p_header_skip, pbind, pret. destruct (p_header i) as [r1 h'|[]|].
  - destruct (p_skip_body (h_length h') r1) as [r2 ?|[]|]; split; try discriminate; try (intros [? ?]; discriminate).
    + intros E. exists r2. congruence.
    + intros [r E]. congruence.
  - split; [discriminate|intros [? ?]; discriminate].
  - split; [discriminate|intros [? ?]; discriminate].
  - split; [discriminate|intros [? ?]; discriminate].
  - split; [discriminate|intros [? ?]; discriminate].
Qed.
(*@C40
[parse_multiple_header] walks a datagram by the length fields alone: whatever the bodies contain, octet
sequences that each have the length their header announces are each reported once, in order, and trailing octets that
do not hold a complete PDU are ignored. *)
Lemma C40_parse_multiple_header_pf : forall cs hs junk, cs <> [] -> (forall h, parse_header junk <> HParsed h) ->
  Forall2 (fun c h => u16_at c 8 = zlen c /\ parse_header c = HParsed h) cs hs ->
  parse_multiple_header (concat cs ++ junk) = HParsed hs.
Proof.
  intros cs hs junk Hne Hj H.
  assert (Hs : Split p_header_skip (concat cs ++ junk) hs junk /\ (hs <> [] \/ cs = [])).
  { clear Hne. induction H as [|c h cs hs (Hc & Hp) H IH].
    - split; [|now right]. cbn [concat app]. destruct (p_header_skip junk) as [r h|k|] eqn:E.
      + exfalso. apply (Hj h). apply parse_header_skip; eauto.
      + econstructor. exact E.
      + exfalso. unfold p_header_skip, pbind in E. destruct (p_header junk) eqn:E1; try discriminate.
        * unfold p_skip_body, take in E. destruct (_ <? _) in E; discriminate.
        * destruct (p_header_nopanic _ E1).
    - split; [|left; discriminate]. cbn [concat]. rewrite <- app_assoc. econstructor; [|apply IH].
      apply parse_header_skip in Hp. destruct Hp as [r Hp].
      assert (r = []) as ->.
      { unfold p_header_skip in Hp. pinv. destruct (header_length_at _ _ _ E) as [Hl _]. destruct (p_header_consumes _ _ _ E) as [-> Hz].
        rewrite Hl, skip_body_cases in E0 by exact Hu. destruct (Z.ltb_spec (zlen (skipn 12 c)) (u16_at c 8 - 12)); [discriminate|].
        assert (r = skipn (Z.to_nat (Z.max 0 (u16_at c 8 - 12))) (skipn 12 c)) as -> by congruence.
        apply skipn_all2. unfold zlen in *. lia. }
      assert (Ext p_header_skip) as He by (unfold p_header_skip, p_skip_body; ext).
      destruct (He _ _ _ Hp) as [_ Hx]. rewrite Hx. reflexivity. }
  destruct Hs as [Hs [Hn|]]; [|contradiction].
  unfold parse_multiple_header. erewrite (many1_complete p_header_skip p_header_skip_consumes) by eassumption. reflexivity.
Qed.
(*@C40
For packets built with this crate: the headers of well-formed PDUs of the types whose advertised length is
right are reported for the concatenation of their serialisations. *)
Lemma C40_headers_of_packet_pf : forall m l, l <> [] ->
  Forall (fun p => wf_Pdu p /\ fits_Pdu p /\ size_pdu p <= 65500 /\ h_length (pdu_header p) = size_pdu p) l ->
  parse_multiple_header (packet m l) = HParsed (map pdu_header l).
Proof.
  intros m l Hne H. rewrite <- (app_nil_r (packet m l)). unfold packet. apply C40_parse_multiple_header_pf.
  - destruct l; [contradiction|discriminate].
  - intros h. unfold parse_header. cbn. discriminate.
  - clear Hne. induction H as [|p l (Hw & Hf & Hs & Hl) H IH]; [constructor|]. cbn [map]. constructor; [|exact IH].
    destruct (wire_ok m p Hw Hf Hs) as [Hz Hp]. specialize (Hp []). rewrite app_nil_r in Hp.
    unfold p_pdu in Hp. pinv. cbn [pdu_header] in *. destruct (header_length_at _ _ _ E) as [Hu _].
    destruct (p_header_consumes _ _ _ E) as [-> Hc].
    split; [congruence|]. unfold parse_header. rewrite E, skip_body_cases. destruct (Z.ltb_spec (zlen (skipn 12 (wire m (MkPdu a a0)))) (h_length a - 12)); [lia|reflexivity].
Qed.
(*@C40
Refutation of the error report of [parse_multiple_header]: a complete header whose body is cut short is reported as an
insufficient header length. *)
Lemma C40_multiple_header_error_refuted_pf : exists i, bytes i /\ 12 <= zlen i /\ parse_header i = HInsufficientPdu 20 8 /\
  parse_multiple_header i = HInsufficientHeader 20.
Proof.
  exists ([7; 1; 15; 5; 0; 0; 0; 0; 0; 32; 0; 0] ++ zeros 8).
  split; [unfold bytes; repeat constructor; vm_compute; (discriminate || reflexivity)|].
  split; [vm_compute; discriminate|]. split; vm_compute; reflexivity.
Qed.
(*@ex*)
Example C40_ex : parse_multiple_header (sample_packet 15 (zeros 20) ++ sample_packet 99 [1; 2; 3] ++ [7; 7]) =
  HParsed [pdu_header (sample_pdu 15 (zeros 20)); pdu_header (sample_pdu 99 [1; 2; 3])].
Proof. vm_compute. reflexivity. Qed.

(** * C54: what was received can be sent on *)
From Coq Require Import ZArith List Lia Bool.
From Verif Require Import Base Utf8 DisCommon DisLists DisHeader DisSimman DisLogistics DisWarfare DisEntity DisEmission DisRadio DisIff DisPdu DisPacket SpecSize SpecRelay Parsed ParsedBodies L_Wire L_Modes.
Import ListNotations. Open Scope Z_scope.

Lemma G_status ty : u8 ty -> Gives (p_status ty) (fun sp => (exists s, fst sp = Some s /\ status_ok ty s) /\ u16 (snd sp)).
Proof.
  intros Ht. unfold p_status. gv. cbn [fst snd]. split; [|size_lia]. eexists; split; [reflexivity|]. apply parse_status_ok; assumption.
Qed.
Lemma G_header : Gives p_header (fun h => wf_PduHeader h /\ (h_padding h = 0 -> 1 <= h_version h <= 7 -> fits_header h)).
Proof.
  unfold p_header. do 6 gv_step.
  eapply Gives_bind with (P := fun sp : option PduStatus * Z => (if rng 1 6 a then fst sp = None else exists s, fst sp = Some s /\ status_ok a1 s) /\ u16 (snd sp)).
  - destruct (rng 1 5 a) eqn:R5; [|destruct (Z.eqb_spec a 6) as [->|N6]].
    + gv. cbn [fst snd]. apply rng_true in R5. replace (rng 1 6 a) with true by (symmetry; apply rng_true; lia). split; [reflexivity|assumption].
    + gv. cbn [fst snd]. change (rng 1 6 6) with true. split; [reflexivity|assumption].
    + apply rng_false in R5. replace (rng 1 6 a) with false by (symmetry; apply rng_false; lia).
      destruct (a =? 7); apply G_status; assumption.
  - intros sp [Hs Hp]. apply Gives_ret. unfold wf_PduHeader, fits_header. cbn [h_version h_exercise h_type h_family h_time h_length h_status h_padding].
    split; [parts|]. intros Hz Hv. split; [assumption|]. destruct (rng 1 6 a) eqn:R6; [assumption|]. apply rng_false in R6.
    replace a with 7 by lia. cbn [Z.eqb Pos.eqb]. assumption.
Qed.

Definition relayable_body (h : PduHeader) (b : PduBody) : Prop := match b with
  | BEntityState x => h_version h = 6 \/ h_version h = 7 \/ ec_word (EntityState_capabilities x) = 0
  | BDetonation x => match Detonation_descriptor x with DExplosion _ _ _ => False | _ => True end
  | BSignal x => zlen (Signal_data x) mod 4 = 0
  | BAttribute x => Forall (fun s => Forall (fun r => (6 + zlen (ar_fields r)) mod 8 = 0) (as_records s)) (Attribute_sets x)
  | BTransmitter x => Forall (fun v => (6 + zlen (vtp_fields v)) mod 8 = 0) (Transmitter_vtps x)
  | BUnderwaterAcoustic x => Forall (fun a => apa_parameter a = 0 /\ apa_status a = 0) (UA_apas x)
  | BIff x => relayable_iff x
  | _ => True end.
Definition relay_ok (h : PduHeader) (b : PduBody) : Prop :=
  12 + size_body b <= 65500 /\ Forall datum_whole (variable_datums b) /\ Forall record_length_fits (record_sets b) /\
  Forall not_separation (variable_parameters b) /\ Forall text_fits (texts b) /\ relayable_body h b.
Lemma vp_both l : Forall vp_canonical l -> Forall not_separation l -> Forall vp_ok l.
Proof. rewrite !Forall_forall. intros A B x Hx. split; auto. Qed.
Lemma rs_both l : Forall (fun r => rs_uniform r /\ zlen (rs_records r) < 65536) l -> Forall record_length_fits l -> Forall rs_ok l.
Proof. rewrite !Forall_forall. intros A B x Hx. specialize (A x Hx). specialize (B x Hx). unfold record_length_fits in B. unfold rs_ok. tauto. Qed.
Ltac eqs := repeat match goal with H : (_ =? _) = false |- _ => clear H end; match goal with H : (_ =? _) = true |- _ => apply Z.eqb_eq in H end.
Ltac body_gives tac :=
  eapply Gives_pmap; [tac|]; intros x Hx; cbv beta in Hx; unpack; cbn [wf_body]; split; [assumption|];
  unfold relay_ok; cbn [fits_body size_body variable_datums record_sets variable_parameters texts relayable_body]; intros; unpack;
  (split; [eqs; first [assumption | left; assumption | right; assumption]|]).
Lemma G_body m h : u8 (h_type h) -> Gives (p_body m h) (fun b => wf_body b /\ (relay_ok h b -> fits_body h b)).
Proof.
  intros Hu. unfold p_body. cbv zeta.
  repeat match goal with |- Gives (if ?c then _ else _) _ => destruct c eqn:? ; [body_gives ltac:(solve [eauto 2 with gives])|] end.
  all: try solve [exact I | assumption].
  all: try solve [match goal with H : _ -> _ -> ?G |- ?G => apply H; [lia|assumption] end].
  all: try solve [match goal with H : _ -> ?G |- ?G => apply H; lia end].
  all: try solve [match goal with |- ?f ?x => unfold f end; split; [lia|assumption]].
  all: try solve [match goal with |- ?f ?x => unfold f end; split; [lia|]; apply rs_both; assumption].
  all: try solve [match goal with |- ?f ?x => unfold f end; lia].
  - match goal with T : Forall text_fits _ |- _ => apply Forall_inv in T; unfold text_fits in T; cbn [fst snd] in T end.
    unfold fits_entity_state, marking_ok. repeat (split; [solve [assumption | split; assumption | apply vp_both; assumption | match goal with H : _ -> ?G |- ?G => apply H; assumption end]|]). apply vp_both; assumption.
  - unfold fits_detonation. repeat split; try assumption. apply vp_both; assumption.
  - unfold fits_signal. repeat split; assumption.
  - match goal with T : Forall text_fits _ |- _ => apply Forall_inv in T; unfold text_fits in T; cbn [fst snd] in T end.
    unfold fits_aggregate_state, marking_ok. repeat split; try assumption. lia.
  - unfold fits_entity_state_update. repeat split; try assumption. apply vp_both; assumption.
  - assert (Ho : other_type (h_type h)).
    { unfold other_type, implemented_types. cbn [In]. repeat match goal with H : (_ =? _) = false |- _ => apply Z.eqb_neq in H end. intuition congruence. }
    repeat match goal with H : (_ =? _) = false |- _ => clear H end.
    eapply Gives_pmap; [apply G_other_body; exact Ho|]. intros x Hx. cbv beta in Hx. unpack. cbn [wf_body]. split; [assumption|].
    unfold relay_ok. cbn [fits_body size_body relayable_body]. intros. unpack. split; [exact Ho|]. split; [assumption|]. match goal with H : _ -> ?G |- ?G => apply H; lia end.
Qed.
Lemma relayable_split p : relayable p -> (h_padding (pdu_header p) = 0 /\ 1 <= h_version (pdu_header p) <= 7) /\ size_pdu p <= 65500 /\ relay_ok (pdu_header p) (pdu_body p).
Proof.
  unfold relayable, size_conditions, content_conditions. cbn [app]. intros H. repeat (apply Forall_cons_iff in H as [? H]). clear H.
  split; [split; assumption|]. split; [assumption|]. unfold relay_ok, size_bounded, size_pdu in *. split; [assumption|].
  repeat (split; [assumption|]). unfold relayable_body, relayable_iff. destruct p as [h b]. unfold capabilities_kept, no_explosion, signal_whole, attributes_whole, vtps_whole, apas_clear, iff_system_known, iff_records_whole, aircraft_ids_fit in *. cbn [pdu_header pdu_body] in *.
  destruct b; try assumption. destruct (Iff_layer_4 _); cbn [if_present] in *; tauto.
Qed.
Lemma G_pdu m : Gives (p_pdu m) (fun p => wf_Pdu p /\ (relayable p -> fits_Pdu p)).
Proof.
  unfold p_pdu. eapply Gives_bind; [apply G_header|]. intros h [Wh Fh]. eapply Gives_bind; [apply (G_body m h); unfold wf_PduHeader in Wh; tauto|].
  intros b [Wb Fb]. apply Gives_ret. split; [split; assumption|]. intros R. apply relayable_split in R. cbn [pdu_header pdu_body] in R. split; cbn [pdu_header pdu_body]; tauto.
Qed.

Lemma split_gives m i l rest : Split (p_pdu m) i l rest -> bytes i -> Forall (fun p => wf_Pdu p /\ (relayable p -> fits_Pdu p)) l.
Proof.
  induction 1 as [|i r a l rest E S IH]; intros B; [constructor|]. destruct (G_pdu m _ _ _ B E) as [Br Ha]. constructor; auto.
Qed.
Lemma parsed_fits m i ps p : bytes i -> parse m i = Parsed ps -> In p ps -> relayable p -> wf_Pdu p /\ fits_Pdu p /\ size_pdu p <= 65500.
Proof.
  intros B E Hp R. apply parse_iff in E. destruct E as (_ & rest & S). pose proof (split_gives _ _ _ _ S B) as F.
  rewrite Forall_forall in F. destruct (F p Hp) as [W Fp]. split; [exact W|]. split; [auto|]. apply relayable_split in R. tauto.
Qed.

(*@C54
A received PDU of the relayable kind can be sent on: serializing it into a buffer of 64 KiB succeeds, in debug and in
release builds alike, whichever build received it, and appends exactly the octets of the PDU. *)
Lemma relay_serializes_pf : forall m m' i ps p buf cap, bytes i -> parse m i = Parsed ps -> In p ps -> relayable p -> 65536 <= cap ->
  exists bs n, serialize m' p buf cap = (buf ++ bs, Written n) /\ zlen bs = size_pdu p.
Proof.
  intros m m' i ps p buf cap B E Hp R Hc. destruct (parsed_fits _ _ _ _ B E Hp R) as (W & F & S).
  assert (claimed_length p <= cap). { destruct W as [Wh Wb], F as [Fh Fb]. unfold claimed_length, size_pdu in *. pose proof (excess_bounds _ _ Wb Fb S). lia. }
  destruct (serialize_ok m' p buf cap W F S H) as (bs & Eb & Hl & _). exists bs, (returned_length p). auto.
Qed.

Lemma wire_any m m' p : wf_Pdu p -> fits_Pdu p -> size_pdu p <= 65500 -> wire m p = wire m' p.
Proof.
  intros W F S. assert (A : wire Wrapping p = wire Checked p).
  { pose proof (serialize_wire Checked p [] (claimed_length p) W F S (Z.le_refl _)) as E1.
    pose proof (serialize_wire Wrapping p [] (claimed_length p) W F S (Z.le_refl _)) as E2.
    rewrite builds_agree_serialize_pf in E2 by (rewrite E1; discriminate). rewrite E1 in E2. cbn [app] in E2. congruence. }
  destruct m, m'; congruence.
Qed.

(*@C54
What is sent on is read back as what was received: any selection of relayable PDUs of a received packet, in any order,
serialized one after the other, parses to exactly those PDUs. Sender, relay and receiver may be any build. *)
Lemma relay_parses_back_pf : forall m m' m'' i ps qs bss cap, bytes i -> parse m i = Parsed ps ->
  qs <> [] -> Forall (fun q => In q ps /\ relayable q) qs ->
  Forall2 (fun q bs => exists n, serialize m' q [] cap = (bs, Written n)) qs bss -> parse m'' (concat bss) = Parsed qs.
Proof.
  intros m m' m'' i ps qs bss cap B E Hne Hq H2. rewrite <- (app_nil_r (concat bss)).
  apply parse_iff. split; [exact Hne|]. exists []. 
  clear Hne. induction H2 as [|q bs qs bss [n Hn] H2 IH]; [econstructor; reflexivity|].
  inversion Hq as [|? ? [Hin R] Hq']; subst. destruct (parsed_fits _ _ _ _ B E Hin R) as (W & F & S).
  cbn [concat]. rewrite <- app_assoc. econstructor; [|apply IH; exact Hq'].
  destruct (Z_lt_ge_dec cap (claimed_length q)) as [Hc|Hc]; [rewrite serialize_small in Hn by assumption; discriminate|].
  rewrite serialize_wire in Hn by (assumption || lia). inversion Hn; subst. cbn [app].
  rewrite (wire_any m' m'' q) by assumption. apply wire_ok; assumption.
Qed.
(*@ex*)
Example relay_example : exists p, parse Checked (sample_packet 15 (zeros 20)) = Parsed [p] /\ relayable p /\
  parse Checked (fst (serialize Checked p [] 65536)) = Parsed [p].
Proof.
  eexists. split; [vm_compute; reflexivity|]. split; [|vm_compute; reflexivity].
  unfold relayable, size_conditions, content_conditions; cbn [app]. repeat constructor; vm_compute; discriminate.
Qed.

(*@C09
The conditions of the first theorem are not just sufficient: for a PDU of the relayable kind (C54), well-formed or not,
what is serialized is read back as the same PDU exactly if the PDU is well-formed and its values fit the wire. (The
octets written are octets, as their type says.) *)
Lemma C09_exact_pf : forall m p cap bs n, relayable p -> serialize m p [] cap = (bs, Written n) -> bytes bs ->
  (parse m bs = Parsed [p] <-> wf_Pdu p /\ fits_Pdu p).
Proof.
  intros m p cap bs n R E B. split.
  - intros P. destruct (parsed_fits m bs [p] p B P (or_introl eq_refl) R) as (W & F & _). auto.
  - intros [W F]. assert (S : size_pdu p <= 65500) by (apply relayable_split in R; tauto).
    destruct (Z_lt_ge_dec cap (claimed_length p)) as [Hc|Hc]; [rewrite serialize_small in E by assumption; discriminate|].
    rewrite serialize_wire in E by (assumption || lia). cbn [app] in E. inversion E; subst.
    pose proof (parse_packet m [p] [] Eof) as H. unfold packet in H. cbn [map concat] in H. rewrite !app_nil_r in H. apply H; [discriminate|constructor; [auto|constructor]|reflexivity].
Qed.
(*@ex*)
Example C09_exact_example : exists p bs n, relayable p /\ serialize Checked p [] 65536 = (bs, Written n) /\ bytes bs /\ zlen bs = 32 /\ parse Checked bs = Parsed [p].
Proof.
  eexists. eexists. eexists. assert (X : exists p, parse Checked (sample_packet 15 (zeros 20)) = Parsed [p] /\ relayable p) by (destruct relay_example as (p & ? & ? & _); eauto).
  destruct X as (p & P & R). vm_compute in P. injection P as <-. split; [exact R|]. split; [vm_compute; reflexivity|]. split; [repeat constructor; lia|]. split; vm_compute; reflexivity.
Qed.
Lemma written_wire m ps capacity bss : Forall2 (fun p bs => exists n, serialize m p [] capacity = (bs, Written n)) ps bss -> concat bss = packet m ps.
Proof.
  induction 1 as [|p bs ps bss [n E] H IH]; [reflexivity|]. unfold packet in *. cbn [concat map]. rewrite IH. f_equal.
  unfold serialize in E. destruct (pdu_length m p); [|discriminate]. destruct (capacity <? _); [discriminate|].
  unfold wire. destruct (w_pdu m p); [|discriminate]. cbn [app] in E. congruence.
Qed.
Definition received (i : list Z) : list Pdu := match parse Checked i with Parsed l => l | _ => [] end.
Lemma relay_needs_by c i : bytes i -> Forall (fun p => Forall (fun d => d = c \/ d p) (size_conditions ++ content_conditions)) (received i) ->
  (forall m, parse m i = Parsed (received i) /\ parse m (packet m (received i)) <> Parsed (received i)) -> relay_needs c.
Proof.
  intros B F H. exists i, (received i). split; [exact B|]. split; [exact F|]. intros m. destruct (H m) as [H1 H2]. split; [exact H1|].
  intros cap bss H3. rewrite (written_wire _ _ _ _ H3). exact H2.
Qed.
Definition octets_of (v ty st pd : Z) (b : list Z) : list Z := [v; 1; ty; 1; 0; 0; 0; 0] ++ be 2 (12 + zlen b) ++ [st; pd] ++ b.
Ltac bytes_now := unfold bytes; match goal with |- Forall ?P ?l => let v := eval vm_compute in l in change (Forall P v) end; repeat constructor; (discriminate || reflexivity).
Ltac condition_now := right; cbv -[Z.lt Z.le Z.eq not]; repeat (apply conj || apply Forall_cons || apply Forall_nil); try exact I; try (unfold Z.lt, Z.le; vm_compute; (reflexivity || discriminate)); try tauto; try lia.
Ltac needs i := apply (relay_needs_by _ i); [bytes_now| |intros m; destruct m; (split; [vm_compute; reflexivity|let H := fresh in intros H; vm_compute in H; discriminate H])];
  match goal with |- Forall ?P ?l => let v := eval vm_compute in l in change (Forall P v) end;
  unfold size_conditions, content_conditions; cbn [app];
  repeat (apply Forall_cons || apply Forall_nil); first [left; reflexivity | condition_now].
Lemma needs_padding_clear : relay_needs padding_clear. Proof. needs (octets_of 6 15 0 1 (zeros 20)). Qed.
Lemma needs_version_known : relay_needs version_known. Proof. needs (octets_of 8 15 255 0 (zeros 20)). Qed.
Lemma needs_datums_whole : relay_needs datums_whole. Proof. needs (octets_of 7 19 0 0 (zeros 27 ++ [1; 0; 0; 0; 1; 0; 0; 0; 8; 5] ++ zeros 7)). Qed.
Lemma needs_no_separations : relay_needs no_separations. Proof. needs (octets_of 7 67 0 0 (zeros 7 ++ [1] ++ zeros 52 ++ [2; 1; 1; 1] ++ repeat 1 12)). Qed.
Lemma needs_texts_fit : relay_needs texts_fit. Proof. needs (octets_of 7 1 0 0 (zeros 117 ++ repeat 255 10 ++ [65] ++ zeros 4)). Qed.
Lemma needs_capabilities_kept : relay_needs capabilities_kept. Proof. needs (octets_of 5 1 0 0 (zeros 128 ++ [255; 255; 255; 255])). Qed.
Lemma needs_no_explosion : relay_needs no_explosion. Proof. needs (octets_of 7 3 32 0 (zeros 60 ++ repeat 1 16 ++ zeros 16)). Qed.
Lemma needs_signal_whole : relay_needs signal_whole. Proof. needs (octets_of 7 26 0 0 (zeros 16 ++ [0; 8; 0; 1; 0xFF]) ++ octets_of 7 15 0 0 (zeros 20)). Qed.
Lemma needs_attributes_whole : relay_needs attributes_whole. Proof. needs (octets_of 7 72 0 0 (zeros 18 ++ [0; 1] ++ zeros 6 ++ [0; 1; 0; 0; 0; 0; 0; 7; 9])). Qed.
Lemma needs_vtps_whole : relay_needs vtps_whole. Proof. needs (octets_of 7 25 0 0 (zeros 18 ++ [0; 1] ++ zeros 72 ++ [0; 0; 0; 0; 0; 7; 9; 0])). Qed.
Lemma needs_apas_clear : relay_needs apas_clear. Proof. needs (octets_of 7 29 0 0 (zeros 18 ++ [1; 0; 0; 5; 0; 0])). Qed.
Lemma needs_iff_system_known : relay_needs iff_system_known. Proof. needs (octets_of 7 28 0 0 (zeros 34 ++ [16] ++ zeros 13 ++ zeros 12)). Qed.
Lemma needs_iff_records_whole : relay_needs iff_records_whole. Proof. needs (octets_of 7 28 0 0 (zeros 34 ++ [4] ++ zeros 13 ++ zeros 14 ++ [0; 1; 0; 0; 0; 0; 0; 7; 9])). Qed.
Lemma needs_aircraft_ids_fit : relay_needs aircraft_ids_fit. Proof. needs (octets_of 7 28 0 0 (zeros 25 ++ [1] ++ zeros 8 ++ [8] ++ zeros 13 ++ zeros 12 ++ repeat 255 7 ++ [65] ++ zeros 13)). Qed.
(*@C54
Every one of the conditions on the content is needed: without it there is a received packet, whose PDUs meet all the
other conditions, that does not come back (refutation of relaying whatever was received). *)
Lemma relay_needs_each_refuted_pf : forall c, In c content_conditions -> relay_needs c.
Proof.
  intros c H. unfold content_conditions in H. cbn [In] in H.
  repeat (destruct H as [<-|H]; [solve [auto using needs_padding_clear, needs_version_known, needs_datums_whole, needs_no_separations, needs_texts_fit,
    needs_capabilities_kept, needs_no_explosion, needs_signal_whole, needs_attributes_whole, needs_vtps_whole, needs_apas_clear,
    needs_iff_system_known, needs_iff_records_whole, needs_aircraft_ids_fit]|]). destruct H.
Qed.

(** * C55: the octets of a PDU are laid out as in the tables of SpecLayout *)
From Coq Require Import ZArith List Lia Bool.
From Verif Require Import Base Utf8 DisCommon DisLists DisHeader DisSimman DisLogistics DisWarfare DisEntity DisEmission DisRadio DisIff DisPdu DisPacket Parsed SpecLayout Layout LayoutP LayoutP2 L_Wire L_Relay.
Import ListNotations. Open Scope Z_scope.

Lemma octets_app a b : octets (a ++ b) = octets a ++ octets b.
Proof. unfold octets. now rewrite map_app, concat_app. Qed.
Lemma Lays_pdu m p : wf_body (pdu_body p) -> standard_pdu p -> Lays (w_pdu m p) (octets (L_pdu p)).
Proof.
  intros Wb [Sh Sb]. unfold w_pdu. eapply Lays_conv.
  - eapply Lays_bind; [apply Lays_header, Sh|]. intros. eapply Lays_bind; [apply Lays_body; assumption|]. intros. repeat lay1.
  - unfold L_pdu. now rewrite octets_app, app_nil_r.
Qed.
(*@C55
Writing: the octets appended for a PDU are those of its table, field by field in the order, width and byte order given
there, padding zero - for every PDU kind and every content outside the listed deviations ([standard_pdu]). *)
Lemma layout_written_pf : forall m p buf capacity out n,
  wf_Pdu p -> standard_pdu p -> serialize m p buf capacity = (out, Written n) -> out = buf ++ octets (L_pdu p).
Proof.
  intros m p buf cap out n [Wh Wb] [Sh Sb]. unfold serialize. destruct (pdu_length m p) as [b0 len|]; [|discriminate].
  destruct (cap <? len); [discriminate|]. destruct (w_pdu m p) as [bs r|] eqn:E; [|discriminate]. intros H. injection H as <- <-. f_equal.
  revert E. apply Lays_pdu; [exact Wb|split; assumption].
Qed.
(*@C55
Reading, for every input: whatever PDUs [parse] returns, the input starts with one piece for each of them, in order, and each
piece shows the table of its PDU - every field of the returned PDU is the number standing at the place the table gives it,
whatever the padding holds - outside the listed deviations ([reads_body]). *)
Lemma layout_read_pf : forall m i ps, bytes i -> parse m i = Parsed ps ->
  exists pieces rest, i = concat pieces ++ rest /\ Forall2 (fun p piece => reads_body (pdu_body p) -> shows (L_pdu p) piece) ps pieces.
Proof.
  intros m i ps B H. apply parse_iff in H. destruct H as [_ [rest Hs]]. destruct (shows_split m i ps rest Hs B) as (parts & -> & HF). eauto.
Qed.
(*@C55
A PDU laid out by somebody else according to the table is read as that PDU: the octets of the table alone are parsed back to it,
and so are packets of such PDUs. *)
Lemma layout_understood_pf : forall m ps, ps <> [] -> Forall (fun p => wf_Pdu p /\ fits_Pdu p /\ size_pdu p <= 65500 /\ standard_pdu p) ps ->
  parse m (concat (map (fun p => octets (L_pdu p)) ps)) = Parsed ps.
Proof.
  intros m ps Hn H. assert (E : concat (map (fun p => octets (L_pdu p)) ps) = packet m ps).
  { unfold packet. clear Hn. induction H as [|p t (Hw & Hf & Hs & Hst) Ht IH]; [reflexivity|]. cbn [map concat]. rewrite IH. f_equal.
    destruct (wire_ok m p Hw Hf Hs) as [_ Hp]. unfold wire in *. destruct Hw as [Wh Wb], Hf as [Fh Fb].
    destruct (RT_pdu m p) as (bs & E & _); [split; assumption|split; assumption| |].
    - pose proof (excess_bounds _ _ Wb Fb Hs) as [Hr _]. unfold size_pdu in *. lia.
    - rewrite E. symmetry. exact (Lays_pdu m p Wb Hst _ _ E). }
  rewrite E. pose proof (parse_packet m ps [] Eof) as P. rewrite app_nil_r in P. apply P; [assumption| |reflexivity].
  eapply Forall_impl; [|exact H]. cbv beta. tauto.
Qed.

(** ** The deviations *)
Ltac wf_now := match goal with |- wf_Pdu ?p => let v := eval vm_compute in p in change (wf_Pdu v) end;
  cbv -[Z.lt Z.le Z.eq not]; repeat (apply conj || apply Forall_cons || apply Forall_nil); try exact I; try lia; try tauto.
Fixpoint same (a b : list Z) := match a, b with [], [] => true | x :: a, y :: b => (x =? y) && same a b | _, _ => false end.
Lemma same_refl a : same a a = true. Proof. induction a as [|x a IH]; [reflexivity|]. cbn [same]. now rewrite Z.eqb_refl, IH. Qed.
Definition deviates m p := match serialize m p [] 2000 with (out, Written _) => negb (same out (octets (L_pdu p))) | _ => false end.
Lemma deviates_ok m p : deviates m p = true -> exists out n, serialize m p [] 2000 = (out, Written n) /\ out <> octets (L_pdu p).
Proof.
  unfold deviates. destruct (serialize m p [] 2000) as [out [n| |]]; try discriminate. intros H. exists out, n. split; [reflexivity|]. intros ->.
  rewrite same_refl in H. discriminate.
Qed.
Definition read_of (i : list Z) : Pdu := match parse Wrapping i with Parsed (p :: _) => p | _ => sample_ack end.
Definition v7 := MkPduHeader 7 1 0 0 0 0 (Some (build_cei_lvc 0 0)) 0.
Definition old_status := fin (MkPduHeader 6 1 0 0 0 0 (Some (build_cei_lvc 1 1)) 0) (pdu_body sample_ack).
Definition old_capabilities := read_of (octets_of 5 1 0 0 (zeros 128 ++ [255; 255; 255; 255])).
Definition part := read_of (octets_of 7 36 0 0 (zeros 32)).
Definition record_reply := read_of (octets_of 7 63 0 0 (zeros 32)).
Definition sonar := fin v7 (BUnderwaterAcoustic (MkUA (eid 1 1 1) (evid 1 1 1) 0 0 (MkPropulsionPlant 0 false) [] [] [MkUASystem (MkAES 1 1 1) (MkVectorF32 0 0 0) []])).
Definition sonar_parameter := fin v7 (BUnderwaterAcoustic (MkUA (eid 1 1 1) (evid 1 1 1) 0 0 (MkPropulsionPlant 0 false) [] [MkAPA 1 1 5] [])).
Definition mode_s := read_of (octets_of 7 28 0 0 (zeros 25 ++ [1] ++ zeros 8 ++ [8] ++ zeros 13 ++ zeros 8 ++ zeros 21 ++ zeros 4)).
Definition beam1 := MkBeam 1 0 (MkFPD 0 0 0 0 0) (MkBeamData 0 0 0 0 0) 0 0 0 (MkJamming 0 0 0 0) [].
Definition many_beams := fin v7 (BElectromagneticEmission (MkEE (eid 1 1 1) (evid 1 1 1) 0 [MkEmitterSystem 1 1 1 (MkVectorF32 0 0 0) (repeat beam1 20)])).
Definition big_scheme := fin v7 (BSignal (MkSignal (eid 1 1 1) 1 (EsRawBinary 1 16384) 0 8000 1 [])).
Definition short_datum := fin v7 (BComment (MkComment (eid 1 1 1) (eid 2 2 2) [MkVariableDatum 1 [5]])).
(*@C55
The writer's deviations (refutation of the claim without its condition): a status before version 7, capabilities in a version
other than 6 and 7, is-part-of, record-R, underwater acoustic systems and additional parameters, Mode S transponders, emitter
systems of more than 255 words, signal type numbers of more than 14 bits, variable datums that are not whole 64-bit words. *)
Lemma layout_written_refuted_pf : forall p,
  In p [old_status; old_capabilities; part; record_reply; sonar; sonar_parameter; mode_s; many_beams; big_scheme; short_datum] ->
  wf_Pdu p /\ forall m, exists out n, serialize m p [] 2000 = (out, Written n) /\ out <> octets (L_pdu p).
Proof.
  intros p H. cbn [In] in H. repeat (destruct H as [<-|H]); try contradiction.
  all: split; [wf_now|intros m; apply deviates_ok; destruct m; vm_compute; reflexivity].
Qed.

Definition v6 := header_new 6 1 0.
Definition separated := bad_separation.
Definition explosion := bad_explosion.
Definition odd_signal := bad_signal.
Definition odd_attribute := fin v7 (BAttribute (MkAttribute (MkSimulationAddress 1 1) 1 7 0 0 [MkAttributeRecordSet (eid 1 1 1) [MkAttributeRecord 1 [9]]])).
Definition odd_vtp := read_of (octets_of 7 25 0 0 (zeros 18 ++ [0; 1] ++ zeros 72 ++ [0; 0; 0; 0; 0; 7; 9; 0])).
Definition unknown_iff := read_of (octets_of 7 28 0 0 (zeros 34 ++ [16] ++ zeros 13 ++ zeros 12)).
Definition odd_iff := read_of (octets_of 7 28 0 0 (zeros 34 ++ [4] ++ zeros 13 ++ zeros 14 ++ [0; 1; 0; 0; 0; 0; 0; 7; 9])).
(*@C55
The reader's deviations (refutation of the claim without its condition): laid out by the table and followed by an acknowledge,
these PDUs are not read as they were meant - separation parameters, explosions, signals whose data are not whole 32-bit words,
attribute, transmitter parameter and IFF records that need padding, IFF layer 3 of an unknown system type, Mode S transponders,
is-part-of and record-R. *)
Lemma layout_read_refuted_pf : forall p,
  In p [separated; explosion; odd_signal; odd_attribute; odd_vtp; unknown_iff; odd_iff; mode_s; part; record_reply] ->
  wf_Pdu p /\ forall m, parse m (octets (L_pdu p) ++ octets (L_pdu sample_ack)) <> Parsed [p; sample_ack].
Proof.
  intros p H. cbn [In] in H. repeat (destruct H as [<-|H]); try contradiction.
  all: split; [wf_now|intros m; destruct m; vm_compute; discriminate].
Qed.
(*@ex*)
Example layout_example : wf_Pdu sample_ack /\ fits_Pdu sample_ack /\ size_pdu sample_ack <= 65500 /\ standard_pdu sample_ack /\ reads_body (pdu_body sample_ack) /\
  exists out n, serialize Checked sample_ack [9] 100 = (out, Written n) /\ out = 9 :: octets (L_pdu sample_ack).
Proof.
  destruct sample_ack_ok as (H1 & H2 & H3). split; [exact H1|]. split; [exact H2|]. split; [exact H3|]. split; [split; [left; reflexivity|exact I]|]. split; [exact I|].
  do 2 eexists. split; vm_compute; reflexivity.
Qed.
(*@ex*)
Example layout_collision_example : octets (L_collision (MkCollision (eid 1 2 3) (eid 4 5 6) (evid 7 8 9) 1 (MkVectorF32 10 11 12) 13 (MkVectorF32 14 15 0x3F800000))) =
  [0;1; 0;2; 0;3;  0;4; 0;5; 0;6;  0;7; 0;8; 0;9;  1;  0;  0;0;0;10; 0;0;0;11; 0;0;0;12;  0;0;0;13;  0;0;0;14; 0;0;0;15; 0x3F;0x80;0;0].
Proof. vm_compute. reflexivity. Qed.

(** * Properties: Layout

    Theorems only: each is closed by the lemma of the same name in L_Layout.v. *)
From Coq Require Import ZArith List Lia Bool String Ascii.
From Verif Require Import Base Utf8 DisCommon DisLists DisHeader DisSimman DisLogistics DisWarfare DisEntity DisEmission DisRadio DisIff DisPdu DisPacket Parsed SpecLayout Layout LayoutP LayoutP2 L_Wire L_Relay L_Layout.
Import ListNotations. Open Scope Z_scope.

(** C55. Writing: the octets appended for a PDU are those of its table, field by field in the order, width and byte order given
there, padding zero - for every PDU kind and every content outside the listed deviations ([standard_pdu]). *)
Theorem layout_written : forall m p buf capacity out n,
  wf_Pdu p -> standard_pdu p -> serialize m p buf capacity = (out, Written n) -> out = buf ++ octets (L_pdu p).
Proof. exact layout_written_pf. Qed.
Print Assumptions layout_written.

(** C55. Reading, for every input: whatever PDUs [parse] returns, the input starts with one piece for each of them, in order, and each
piece shows the table of its PDU - every field of the returned PDU is the number standing at the place the table gives it,
whatever the padding holds - outside the listed deviations ([reads_body]). *)
Theorem layout_read : forall m i ps, bytes i -> parse m i = Parsed ps ->
  exists pieces rest, i = concat pieces ++ rest /\ Forall2 (fun p piece => reads_body (pdu_body p) -> shows (L_pdu p) piece) ps pieces.
Proof. exact layout_read_pf. Qed.
Print Assumptions layout_read.

(** C55. A PDU laid out by somebody else according to the table is read as that PDU: the octets of the table alone are parsed back to it,
and so are packets of such PDUs. *)
Theorem layout_understood : forall m ps, ps <> [] -> Forall (fun p => wf_Pdu p /\ fits_Pdu p /\ size_pdu p <= 65500 /\ standard_pdu p) ps ->
  parse m (concat (map (fun p => octets (L_pdu p)) ps)) = Parsed ps.
Proof. exact layout_understood_pf. Qed.
Print Assumptions layout_understood.

(** C55. The writer's deviations (refutation of the claim without its condition): a status before version 7, capabilities in a version
other than 6 and 7, is-part-of, record-R, underwater acoustic systems and additional parameters, Mode S transponders, emitter
systems of more than 255 words, signal type numbers of more than 14 bits, variable datums that are not whole 64-bit words. *)
Theorem layout_written_refuted : forall p,
  In p [old_status; old_capabilities; part; record_reply; sonar; sonar_parameter; mode_s; many_beams; big_scheme; short_datum] ->
  wf_Pdu p /\ forall m, exists out n, serialize m p [] 2000 = (out, Written n) /\ out <> octets (L_pdu p).
Proof. exact layout_written_refuted_pf. Qed.
Print Assumptions layout_written_refuted.

(** C55. The reader's deviations (refutation of the claim without its condition): laid out by the table and followed by an acknowledge,
these PDUs are not read as they were meant - separation parameters, explosions, signals whose data are not whole 32-bit words,
attribute, transmitter parameter and IFF records that need padding, IFF layer 3 of an unknown system type, Mode S transponders,
is-part-of and record-R. *)
Theorem layout_read_refuted : forall p,
  In p [separated; explosion; odd_signal; odd_attribute; odd_vtp; unknown_iff; odd_iff; mode_s; part; record_reply] ->
  wf_Pdu p /\ forall m, parse m (octets (L_pdu p) ++ octets (L_pdu sample_ack)) <> Parsed [p; sample_ack].
Proof. exact layout_read_refuted_pf. Qed.
Print Assumptions layout_read_refuted.

Example layout_example : wf_Pdu sample_ack /\ fits_Pdu sample_ack /\ size_pdu sample_ack <= 65500 /\ standard_pdu sample_ack /\ reads_body (pdu_body sample_ack) /\
  exists out n, serialize Checked sample_ack [9] 100 = (out, Written n) /\ out = 9 :: octets (L_pdu sample_ack).
Proof.
  destruct sample_ack_ok as (H1 & H2 & H3). split; [exact H1|]. split; [exact H2|]. split; [exact H3|]. split; [split; [left; reflexivity|exact I]|]. split; [exact I|].
  do 2 eexists. split; vm_compute; reflexivity.
Qed.

Example layout_collision_example : octets (L_collision (MkCollision (eid 1 2 3) (eid 4 5 6) (evid 7 8 9) 1 (MkVectorF32 10 11 12) 13 (MkVectorF32 14 15 0x3F800000))) =
  [0;1; 0;2; 0;3;  0;4; 0;5; 0;6;  0;7; 0;8; 0;9;  1;  0;  0;0;0;10; 0;0;0;11; 0;0;0;12;  0;0;0;13;  0;0;0;14; 0;0;0;15; 0x3F;0x80;0;0].
Proof. vm_compute. reflexivity. Qed.

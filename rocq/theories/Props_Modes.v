(** * Properties: Modes

    Theorems only: each is closed by the lemma of the same name in L_Modes.v. *)
From Coq Require Import ZArith List Lia Bool String Ascii.
From Verif Require Import Base DisCommon DisLists DisHeader DisSimman DisLogistics DisWarfare DisEntity DisEmission DisRadio DisIff DisPdu DisPacket
  CdisBase CdisRecords CdisBodies1 CdisBodies2 CdisIff CdisPdu CdisCodec1 CdisCodec2 CdisCodec3 Gateway GatewaySys SpecGatewaySys SpecModes SpecCdisPdu DisText L_Wire L_Length L_CdisPdu L_Gateway L_GatewayLive L_Modes.
Import ListNotations. Open Scope Z_scope.

(** C53. Parsing: an octet string on which a build with overflow checks does not panic is parsed to the same result, PDUs or error, by a build without them. *)
Theorem builds_agree_parse : forall i, parse Checked i <> ParsePanic -> parse Wrapping i = parse Checked i.
Proof. exact builds_agree_parse_pf. Qed.
Print Assumptions builds_agree_parse.

(** C53. The same for the version filters and for a single PDU. *)
Theorem builds_agree_parse_more : forall i,
  (parse_v6 Checked i <> ParsePanic -> parse_v6 Wrapping i = parse_v6 Checked i) /\
  (parse_v7 Checked i <> ParsePanic -> parse_v7 Wrapping i = parse_v7 Checked i) /\
  (parse_pdu Checked i <> ParsePanic -> parse_pdu Wrapping i = parse_pdu Checked i).
Proof. exact builds_agree_parse_more_pf. Qed.
Print Assumptions builds_agree_parse_more.

Example builds_agree_parse_example : exists i, parse Checked i <> ParsePanic /\ parse Checked i <> ParseError.
Proof. exists (sample_packet 25 (zeros 92)). split; vm_compute; discriminate. Qed.

(** C53. Serialization: when a build with overflow checks writes a PDU or reports a buffer that is too small, a build without them leaves the same buffer and
returns the same result. *)
Theorem builds_agree_serialize : forall p buf capacity, snd (serialize Checked p buf capacity) <> Panicked ->
  serialize Wrapping p buf capacity = serialize Checked p buf capacity.
Proof. exact builds_agree_serialize_pf. Qed.
Print Assumptions builds_agree_serialize.

(** C53. Building a PDU from its parts: the header with the same length, or a panic of the checked build only. *)
Theorem builds_agree_finalize : forall h b ts, finalize Checked h b ts <> WPanic -> finalize Wrapping h b ts = finalize Checked h b ts.
Proof. exact builds_agree_finalize_pf. Qed.
Print Assumptions builds_agree_finalize.

(** C53. C-DIS serialization: what a build with overflow checks writes, and where it leaves the cursor, one without them writes. *)
Theorem builds_agree_cserialize : forall p buf cursor, cserialize Checked p buf cursor <> None ->
  cserialize Wrapping p buf cursor = cserialize Checked p buf cursor.
Proof. exact builds_agree_cserialize_pf. Qed.
Print Assumptions builds_agree_cserialize.

(** C53. C-DIS decoding: a history of C-DIS PDUs that a decoder with overflow checks decodes without a panic is decoded to the same PDUs, and leaves the same
state, without them.  (Encoding and C-DIS parsing do not depend on the build in the model: their arithmetic is on wide types or already reduced.) *)
Theorem builds_agree_decode : forall g o l, decode_all Checked g o l <> None -> decode_all Wrapping g o l = decode_all Checked g o l.
Proof. exact builds_agree_decode_pf. Qed.
Print Assumptions builds_agree_decode.

(** C53. The gateway as a whole: a schedule of its tasks after which no codec task of a build with overflow checks has panicked or is about to leads a build
without them to the same state: the same datagrams sent, the same statistics, the same codec states. *)
Theorem builds_agree_gateway : forall g o capacity l s, sys_run Checked g o capacity sys_new l = Some s -> unharmed s ->
  sys_run Wrapping g o capacity sys_new l = Some s.
Proof. exact builds_agree_gateway_pf. Qed.
Print Assumptions builds_agree_gateway.

Example builds_agree_gateway_example : forall g o capacity, (forall buf, 12 <= capacity buf) -> exists l s, sys_run Checked g o capacity sys_new l = Some s /\ unharmed s /\
  f_seen (s_enc s) = [stop_octets 255] /\ zlen (f_sent (s_enc s)) = 1.
Proof.
  intros g o capacity C. destruct (gateway_rest_example g o capacity C) as (l & s & _ & R & [(_ & _ & [st1 E1] & _) [(_ & _ & [st2 E2] & _) _]] & _ & S1 & S2).
  exists l, s. split; [exact R|]. split; [|split; assumption]. unfold unharmed. rewrite E1, E2. split; exact I.
Qed.

(** C53. Time stamps from seconds: the same, as long as a checked build does not panic. *)
Theorem builds_agree_seconds : forall s,
  (new_absolute_from_secs Checked s <> None -> new_absolute_from_secs Wrapping s = new_absolute_from_secs Checked s) /\
  (new_relative_from_secs Checked s <> None -> new_relative_from_secs Wrapping s = new_relative_from_secs Checked s).
Proof. exact builds_agree_seconds_pf. Qed.
Print Assumptions builds_agree_seconds.

(** C53. Where the checked build stops, the other one goes on with a length that is wrong: an Other PDU of 65524 to 65535 octets of body panics with overflow
checks; without them its octets are all written, and the number that is returned, and required of the buffer, is less by 65536. *)
Theorem builds_differ_serialize_refuted : forall h o r body buf capacity, 65524 <= zlen body < 65536 -> zlen body - 65524 <= capacity ->
  let p := MkPdu h (BOther (MkOther o r body)) in
  serialize Checked p buf capacity = (buf, Panicked) /\
  exists bs, serialize Wrapping p buf capacity = (buf ++ bs, Written (zlen body - 65524)) /\ zlen bs = 12 + zlen body.
Proof. exact builds_differ_serialize_refuted_pf. Qed.
Print Assumptions builds_differ_serialize_refuted.

Example builds_agree_examples : (exists bs, serialize Checked sample_response [] 100 = (bs, Written 64)) /\
  (exists bs, w_cpdu Checked (ex_pdu 22 (CBComment ex_comment)) = WOk bs tt /\ cserialize Checked (ex_pdu 22 (CBComment ex_comment)) bs 0 <> None) /\
  (forall g o, decode_all Checked g o [ex_pdu 22 (CBComment ex_comment)] <> None).
Proof.
  split; [eexists; vm_compute; reflexivity|]. split; [|intros; vm_compute; discriminate].
  destruct (w_cpdu Checked (ex_pdu 22 (CBComment ex_comment))) as [bs []|] eqn:E; [|vm_compute in E; discriminate].
  exists bs. split; [reflexivity|]. vm_compute in E. injection E as <-. vm_compute. discriminate.
Qed.

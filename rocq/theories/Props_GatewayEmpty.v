(** * Properties: GatewayEmpty

    Theorems only: each is closed by the lemma of the same name in L_GatewayEmpty.v. *)
From Coq Require Import ZArith List Lia Bool String Ascii.
From Verif Require Import Base DisHeader DisLists DisPdu DisPacket DisWarfare CdisBase CdisRecords CdisPdu SpecCdisPdu L_CdisPdu CdisCodec1 CdisCodec2 CdisCodec3 SpecCodec Gateway SpecGateway L_Gateway GatewaySys SpecGatewaySys L_GatewaySys SpecGatewayEmpty L_GatewayEmpty.
Import ListNotations. Open Scope Z_scope.

(** C35. What the gateway puts on its DIS network for a datagram from its C-DIS network: whatever the octets of that datagram, whatever came before and however
   much room the buffer has, if the decoder does not panic then its output is nothing but DIS PDUs of type 0 without a body, 12 octets each, and the decoder
   knows no more than before. *)
Theorem gateway_dis_output : forall m g o capacity st bytes evs out st', decode_buffer m g o capacity st bytes = Done evs (out, st') ->
  only_empty_pdus out /\ st' = st.
Proof. exact gateway_dis_output_pf. Qed.
Print Assumptions gateway_dis_output.

Example gateway_dis_output_example : forall g o, exists evs out, decode_buffer Checked g o (fun _ => 1500) dec_state_new [64; 0; 0; 0; 0; 0; 0; 0] = Done evs (out, dec_state_new) /\
  zlen out = 12 /\ only_empty_pdus out /\ exists ps, parse Checked out = Parsed ps /\ zlen ps = 1.
Proof.
  intros g o. do 2 eexists. split; [cbv; reflexivity|]. split; [reflexivity|]. split.
  - exists [[7; 0; 0; 0; 0; 0; 0; 0; 0; 12; 0; 0]]. split; [reflexivity|]. constructor; [|constructor]. unfold empty_pdu. do 7 eexists. reflexivity.
  - eexists. split; vm_compute; reflexivity.
Qed.

(** C35. And for a DIS program such a datagram is an error, when it is empty, or a sequence of PDUs that say nothing. *)
Theorem empty_pdus_say_nothing : forall m d, only_empty_pdus d ->
  (d = [] /\ parse m d = ParseError) \/ exists ps, parse m d = Parsed ps /\ Forall says_nothing ps /\ zlen d = 12 * zlen ps.
Proof. exact empty_pdus_say_nothing_pf. Qed.
Print Assumptions empty_pdus_say_nothing.

(** C35. So for the gateway as a whole: in every state that any schedule reaches, whatever arrived on its C-DIS network - from another gateway, say, to which
   a federation of DIS programs is connected - no datagram that it has put on its DIS network holds a PDU that says anything. The two gateways connect
   nothing. *)
Theorem gateway_connects_nothing : forall m g o capacity s d ps, reachable m g o capacity s -> In d (f_sent (s_dec s)) -> parse m d = Parsed ps -> Forall says_nothing ps.
Proof. exact gateway_connects_nothing_pf. Qed.
Print Assumptions gateway_connects_nothing.

(** * C55: octets that show the table of a PDU are read as that PDU, whatever the padding holds *)
From Coq Require Import ZArith List Lia Bool.
From Verif Require Import Base Utf8 DisCommon DisLists DisHeader DisSimman DisLogistics DisWarfare DisEntity DisEmission DisRadio DisIff DisPdu DisPacket Parsed SpecLayout Layout LayoutP LayoutP2 SpecLegible LayoutC LayoutC2 LegibleG L_Wire L_Relay L_Layout.
Import ListNotations. Open Scope Z_scope.

Lemma split_shown m ps parts : Forall (fun p => wf_Pdu p /\ legible p) ps -> Forall2 (fun p os => bytes os /\ shows (L_pdu p) os) ps parts ->
  forall rest k, p_pdu m rest = PErr k -> exists qs, Split (p_pdu m) (concat parts ++ rest) qs rest /\ Forall2 same_but_padding ps qs.
Proof.
  intros H H2 rest k E. induction H2 as [|p os t ot [B S] _ IH]; cbn [concat app].
  - exists []. split; [econstructor; exact E|constructor].
  - inversion H as [|? ? [W L] Ht]; subst. destruct (IH Ht) as (qs & Sq & F). destruct (Tk_pdu m p os (concat ot ++ rest) W L B S) as (q & Eq & Sp).
    exists (q :: qs). split; [rewrite <- app_assoc; econstructor; eassumption|constructor; assumption].
Qed.
(*@C55
Reading somebody else's packet: octets that show, one after the other, the tables of legible PDUs - every field at its place,
anything at all in the padding, the unused bits and the lengths that need not be looked at - are read as exactly those PDUs, in
order and none more, apart from the padding of the header, which is kept. The octets after them may be anything that does not
itself begin with a PDU. *)
Lemma layout_any_padding_pf : forall m ps parts rest k, ps <> [] -> Forall (fun p => wf_Pdu p /\ legible p) ps ->
  Forall2 (fun p os => bytes os /\ shows (L_pdu p) os) ps parts -> p_pdu m rest = PErr k ->
  exists qs, parse m (concat parts ++ rest) = Parsed qs /\ Forall2 same_but_padding ps qs.
Proof.
  intros m ps parts rest k Hn H H2 E. destruct (split_shown m ps parts H H2 rest k E) as (qs & S & F). exists qs. split; [|exact F].
  apply parse_iff. split; [|eauto]. intros ->. inversion F; subst; congruence.
Qed.
Lemma split_legible m i ps rest : Split (p_pdu m) i ps rest -> bytes i -> Forall (fun p => size_pdu p <= 65500 /\ reads_body (pdu_body p)) ps ->
  exists parts k, i = concat parts ++ rest /\ Forall2 (fun p os => wf_Pdu p /\ legible p /\ bytes os /\ shows (L_pdu p) os) ps parts /\ p_pdu m rest = PErr k.
Proof.
  induction 1 as [i k E|i r a l rest E S IH]; intros B F; [exists [], k; repeat split; [constructor|exact E]|].
  inversion F as [|? ? [Fs Fr] Ft]; subst. destruct (G_pdu m _ _ _ B E) as [Br [W _]]. destruct (Q_pdu m _ _ _ B E) as [_ Q].
  destruct (IH Br Ft) as (parts & k & -> & HF & Ek). destruct (Sh_pdu m i _ a B E) as (_ & (c & -> & Sc) & _).
  exists (c :: parts), k. split; [cbn [concat]; now rewrite <- app_assoc|]. split; [|exact Ek]. constructor; [|exact HF].
  split; [exact W|]. split; [auto|]. apply Forall_app in B as [Bc _]. auto.
Qed.
(*@C55
Conversely the PDUs [parse] returns are legible and in range and their pieces of the input show their tables, and nothing that
follows the last piece begins with a PDU: up to the padding of the header, and outside the listed deviations, [parse] returns
the PDUs exactly for the packets described in layout_any_padding. *)
Lemma layout_read_exactly_pf : forall m i ps, bytes i -> parse m i = Parsed ps -> Forall (fun p => size_pdu p <= 65500 /\ reads_body (pdu_body p)) ps ->
  exists parts rest k, i = concat parts ++ rest /\ Forall2 (fun p os => wf_Pdu p /\ legible p /\ bytes os /\ shows (L_pdu p) os) ps parts /\ p_pdu m rest = PErr k.
Proof.
  intros m i ps B H F. apply parse_iff in H. destruct H as [_ [rest Hs]]. destruct (split_legible m i ps rest Hs B F) as (parts & k & E & G & K). eauto 6.
Qed.
(*@C55
The table of a legible PDU determines it: octets that show the tables of two legible PDUs show the same PDU (up to the padding
of the header, which is in the table of neither). *)
Lemma layout_unambiguous_pf : forall p q os, bytes os -> wf_Pdu p -> legible p -> shows (L_pdu p) os -> wf_Pdu q -> legible q -> shows (L_pdu q) os ->
  same_but_padding p q.
Proof.
  intros p q os B Wp Lp Sp Wq Lq Sq. destruct (Tk_pdu Checked p os [] Wp Lp B Sp) as (x & Ex & [Bx Hx]). destruct (Tk_pdu Checked q os [] Wq Lq B Sq) as (y & Ey & [By Hy]).
  rewrite Ex in Ey. injection Ey as <-. split; [congruence|]. rewrite Hx in Hy. injection Hy as E1 E2 E3 E4 E5 E6 E7.
  destruct (pdu_header q) as [a1 a2 a3 a4 a5 a6 a7 a8]; cbn [h_version h_exercise h_type h_family h_time h_length h_status h_padding] in *. congruence.
Qed.

Definition repaired : Pdu := MkPdu (MkPduHeader 7 1 9 3 100 28 (Some (parse_status 9 0)) 0) (BRepairComplete (MkRepairComplete (eid 1 2 3) (eid 4 5 6) 7)).
Definition repaired_octets : list Z := [7; 1; 9; 3; 0; 0; 0; 100; 0; 28; 0; 99;  0; 1; 0; 2; 0; 3; 0; 4; 0; 5; 0; 6; 0; 7; 171; 205].
Lemma repaired_shown : wf_Pdu repaired /\ legible repaired /\ bytes repaired_octets /\ shows (L_pdu repaired) repaired_octets.
Proof.
  split; [unfold wf_Pdu, repaired, wf_PduHeader, u8, u16, u32; cbn; unfold wf_RepairComplete, wf_EntityId, wf_SimulationAddress, u16; cbn; lia|].
  split; [split; [cbn; split; [discriminate|lia]|split; reflexivity || exact I]|].
  split; [unfold bytes, repaired_octets, u8; repeat constructor; lia|].
  exists [[7]; [1]; [9]; [3]; [0;0;0;100]; [0;28]; [0]; [99]; [0;1]; [0;2]; [0;3]; [0;4]; [0;5]; [0;6]; [0;7]; [171;205]]. split; [reflexivity|].
  unfold repaired, L_pdu. cbn [pdu_header pdu_body L_header L_body h_version h_status L_repair_complete L_pair]. 
  repeat constructor.
Qed.
(*@ex*)
Example layout_any_padding_example : wf_Pdu repaired /\ legible repaired /\ bytes repaired_octets /\ shows (L_pdu repaired) repaired_octets /\
  exists q, parse Checked (repaired_octets ++ [7; 1]) = Parsed [q] /\ same_but_padding repaired q /\ h_padding (pdu_header q) = 99 /\ size_pdu q <= 65500 /\ reads_body (pdu_body q).
Proof.
  destruct repaired_shown as (H1 & H2 & H3 & H4). repeat (split; [assumption|]).
  eexists. split; [vm_compute; reflexivity|]. split; [split; vm_compute; reflexivity|]. split; [vm_compute; reflexivity|split; [vm_compute; discriminate|exact I]].
Qed.

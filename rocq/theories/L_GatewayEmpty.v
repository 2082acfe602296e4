(** * Lemmas for C35: what leaves the gateway on the DIS side *)
From Coq Require Import ZArith List Lia Bool.
From Verif Require Import Base DisHeader DisLists DisPdu DisPacket DisWarfare CdisBase CdisRecords CdisPdu SpecCdisPdu L_CdisPdu CdisCodec1 CdisCodec2 CdisCodec3 SpecCodec Gateway SpecGateway L_Gateway GatewaySys SpecGatewaySys L_GatewaySys SpecGatewayEmpty.
Import ListNotations. Open Scope Z_scope.

Lemma decode_empty m g o st c : cp_body c = CBUnsupported -> exists e f t s,
  decode m g o st c = WOk [] (MkPdu (MkPduHeader 7 e 0 f t 12 (Some s) 0) (BOther (MkOther None None [])), StateUnaffected, st).
Proof. intros H. unfold decode. rewrite H. cbn [dec_body]. destruct m; do 4 eexists; reflexivity. Qed.
Lemma write_empty m e f t s buf capacity : 12 <= capacity -> exists d,
  serialize m (MkPdu (MkPduHeader 7 e 0 f t 12 (Some s) 0) (BOther (MkOther None None []))) buf capacity = (buf ++ d, Written 12) /\ empty_pdu d.
Proof.
  intros C. destruct (serialize_empty m (MkPdu (MkPduHeader 7 e 0 f t 12 (Some s) 0) (BOther (MkOther None None []))) buf capacity eq_refl eq_refl eq_refl C) as (d & S & _).
  exists d. split; [exact S|]. unfold serialize in S. assert (P : pdu_length m (MkPdu (MkPduHeader 7 e 0 f t 12 (Some s) 0) (BOther (MkOther None None []))) = WOk [] 12) by (destruct m; reflexivity).
  rewrite P in S. replace (capacity <? 12) with false in S by lia.
  assert (W : exists d', w_pdu m (MkPdu (MkPduHeader 7 e 0 f t 12 (Some s) 0) (BOther (MkOther None None []))) = WOk d' 12 /\ empty_pdu d').
  { destruct m; eexists; (split; [reflexivity|]); unfold empty_pdu; do 7 eexists; reflexivity. }
  destruct W as (d' & W & E). rewrite W in S. injection S as S. apply app_inv_head in S. now subst.
Qed.
Lemma take_none (r : list Z) : take 0 r = POk r [].
Proof. apply (take_app [] r 0 eq_refl). Qed.
Lemma read_empty m d rest : empty_pdu d -> exists p, p_pdu m (d ++ rest) = POk rest p /\ says_nothing p.
Proof.
  intros (e & f & t1 & t2 & t3 & t4 & s & ->). cbn [app].
  assert (exists h, p_header (7 :: e :: 0 :: f :: t1 :: t2 :: t3 :: t4 :: 0 :: 12 :: s :: 0 :: rest) = POk rest h /\ h_type h = 0 /\ h_length h = 12) as (h & Eh & Et & El)
    by (eexists; split; [reflexivity|split; reflexivity]).
  exists (MkPdu h (BOther (MkOther None None []))). split; [|split; [exact Et|reflexivity]].
  unfold p_pdu. unfold pbind at 1. rewrite Eh.
  assert (B : p_body m h rest = POk rest (BOther (MkOther None None []))).
  { destruct h as [v e' ty f' t l st pad]. cbn [h_type h_length] in Et, El. subst ty l.
    change (p_body m (MkPduHeader v e' 0 f' t 12 st pad)) with (o <- p_other_body 0 12;; pret (BOther o))%parse.
    unfold pbind at 1. assert (O : p_other_body 0 12 rest = (b <- take 0;; pret (MkOther None None b))%parse rest) by reflexivity. rewrite O.
    unfold pbind. now rewrite take_none. }
  unfold pbind. now rewrite B.
Qed.
Lemma only_empty_nil : only_empty_pdus [].
Proof. exists []. split; [reflexivity|constructor]. Qed.
Lemma decode_pdus_empty m g o cs : Forall (fun c => cin_cdis c = false -> cp_body c = CBUnsupported) cs -> forall st evs ps st', decode_pdus m g o st cs = Done evs (ps, st') ->
  st' = st /\ Forall (fun p => exists e f t s, p = MkPdu (MkPduHeader 7 e 0 f t 12 (Some s) 0) (BOther (MkOther None None []))) ps.
Proof.
  induction 1 as [|c cs Hc _ IH]; intros st evs ps st' D.
  - injection D as _ <- <-. split; [reflexivity|constructor].
  - cbn [decode_pdus] in D. rewrite implemented_ccdis in D. destruct (cin_cdis c) eqn:I.
    + destruct (decode_pdus m g o st cs) as [ev [ps1 st1]|ev] eqn:E; [|discriminate D]. injection D as _ <- <-. eapply IH; exact E.
    + destruct (decode_empty m g o st c (Hc eq_refl)) as (e & f & t & s & Ed). rewrite Ed in D.
      destruct (decode_pdus m g o st cs) as [ev [ps1 st1]|ev] eqn:E; [|discriminate D]. injection D as _ <- <-. destruct (IH _ _ _ _ E) as [-> F]. split; [reflexivity|].
      constructor; [exists e, f, t, s; reflexivity|exact F].
Qed.
Lemma writing_empty m capacity ps : Forall (fun p => exists e f t s, p = MkPdu (MkPduHeader 7 e 0 f t 12 (Some s) 0) (BOther (MkOther None None []))) ps ->
  forall buf n evs out k, only_empty_pdus buf -> dec_writing_all m capacity buf n ps = Done evs (out, k) -> only_empty_pdus out.
Proof.
  induction 1 as [|p ps (e & f & t & s & ->) _ IH]; intros buf n evs out k B W; cbn [dec_writing_all] in W.
  - injection W as _ <- _. exact B.
  - destruct (Z.leb_spec 12 (capacity buf)) as [C|C].
    + destruct (write_empty m e f t s buf (capacity buf) C) as (d & S & E). rewrite S in W. refine (IH _ _ _ _ _ _ W).
      destruct B as (l & -> & F). exists (l ++ [d]). split; [rewrite concat_app; cbn [concat]; now rewrite app_nil_r|]. apply Forall_app. split; [exact F|]. now constructor.
    + assert (S : serialize m (MkPdu (MkPduHeader 7 e 0 f t 12 (Some s) 0) (BOther (MkOther None None []))) buf (capacity buf) = (buf, InsufficientBufferSize 12 (capacity buf))).
      { unfold serialize. assert (P : pdu_length m (MkPdu (MkPduHeader 7 e 0 f t 12 (Some s) 0) (BOther (MkOther None None []))) = WOk [] 12) by (destruct m; reflexivity).
        rewrite P. replace (capacity buf <? 12) with true by lia. reflexivity. }
      rewrite S in W. discriminate W.
Qed.
(*@C35
   What the gateway puts on its DIS network for a datagram from its C-DIS network: whatever the octets of that datagram, whatever came before and however
   much room the buffer has, if the decoder does not panic then its output is nothing but DIS PDUs of type 0 without a body, 12 octets each, and the decoder
   knows no more than before. *)
Lemma gateway_dis_output_pf : forall m g o capacity st bytes evs out st', decode_buffer m g o capacity st bytes = Done evs (out, st') ->
  only_empty_pdus out /\ st' = st.
Proof.
  intros m g o capacity st bytes evs out st' H. unfold decode_buffer in H.
  destruct (match cparse bytes with CParsed cs => decode_pdus m g o st cs | CParseError => tret ([], st) | CParsePanic => tdie end) as [e1 [ps st1]|e1] eqn:D; [|discriminate H].
  cbn [tbind emit fst snd] in H. unfold dec_writing in H. destruct (dec_writing_all m capacity [] 0 ps) as [e2 [b k]|e2] eqn:W; [|discriminate H]. injection H as _ <- <-.
  assert (K : st1 = st /\ Forall (fun p => exists e f t s, p = MkPdu (MkPduHeader 7 e 0 f t 12 (Some s) 0) (BOther (MkOther None None []))) ps).
  { destruct (cparse bytes) as [cs| |] eqn:P; [|injection D as _ <- <-; split; [reflexivity|constructor]|discriminate D].
    exact (decode_pdus_empty _ _ _ _ (cparse_foreign _ _ P) _ _ _ _ D). }
  destruct K as [K F]. split; [|exact K]. exact (writing_empty _ _ _ F _ _ _ _ _ only_empty_nil W).
Qed.
(*@ex*)
Example gateway_dis_output_example : forall g o, exists evs out, decode_buffer Checked g o (fun _ => 1500) dec_state_new [64; 0; 0; 0; 0; 0; 0; 0] = Done evs (out, dec_state_new) /\
  zlen out = 12 /\ only_empty_pdus out /\ exists ps, parse Checked out = Parsed ps /\ zlen ps = 1.
Proof.
  intros g o. do 2 eexists. split; [cbv; reflexivity|]. split; [reflexivity|]. split.
  - exists [[7; 0; 0; 0; 0; 0; 0; 0; 0; 12; 0; 0]]. split; [reflexivity|]. constructor; [|constructor]. unfold empty_pdu. do 7 eexists. reflexivity.
  - eexists. split; vm_compute; reflexivity.
Qed.
(*@C35
   And for a DIS program such a datagram is an error, when it is empty, or a sequence of PDUs that say nothing. *)
Lemma empty_pdus_say_nothing_pf : forall m d, only_empty_pdus d ->
  (d = [] /\ parse m d = ParseError) \/ exists ps, parse m d = Parsed ps /\ Forall says_nothing ps /\ zlen d = 12 * zlen ps.
Proof.
  intros m d (l & -> & F). destruct F as [|d l Hd F]; [left; split; destruct m; reflexivity|right].
  assert (X : forall l, Forall empty_pdu l -> exists ps, Split (p_pdu m) (concat l) ps [] /\ Forall says_nothing ps /\ zlen (concat l) = 12 * zlen ps /\ (l <> [] -> ps <> [])).
  { clear. induction 1 as [|d l Hd _ IH].
    - exists []. split; [destruct m; (eapply Split_stop; reflexivity)|]. split; [constructor|]. split; [reflexivity|auto].
    - destruct IH as (ps & S & N & L & _). destruct (read_empty m d (concat l) Hd) as (p & R & Np). exists (p :: ps). split; [cbn [concat]; eapply Split_more; eassumption|].
      split; [now constructor|]. split; [|discriminate]. cbn [concat]. rewrite zlen_app, L, zlen_cons. destruct Hd as (? & ? & ? & ? & ? & ? & ? & ->). change (zlen [7; x; 0; x0; x1; x2; x3; x4; 0; 12; x5; 0]) with 12. lia. }
  destruct (X (d :: l) (Forall_cons _ Hd F)) as (ps & S & N & L & Ne). exists ps. split; [|auto]. apply parse_iff. split; [apply Ne; discriminate|exists []; exact S].
Qed.
Lemma alone_empty m g o capacity l : forall st outs st', run (fun (st : DecState) (i : unit * list Z) => match decode_buffer m g o capacity st (snd i) with Done _ r => Some r | Died _ => None end) st l = Some (outs, st') ->
  Forall only_empty_pdus outs /\ st' = st.
Proof.
  induction l as [|[u d] l IH]; intros st outs st' H.
  - injection H as <- <-. split; [constructor|reflexivity].
  - cbn [run snd] in H. destruct (decode_buffer m g o capacity st d) as [ev [out st1]|ev] eqn:D; [|discriminate H]. apply gateway_dis_output_pf in D as [E ->].
    destruct (run _ st l) as [[outs1 st2]|] eqn:R; [|discriminate H]. injection H as <- <-. destruct (IH _ _ _ R) as [F ->]. split; [now constructor|reflexivity].
Qed.
(*@C35
   So for the gateway as a whole: in every state that any schedule reaches, whatever arrived on its C-DIS network - from another gateway, say, to which
   a federation of DIS programs is connected - no datagram that it has put on its DIS network holds a PDU that says anything. The two gateways connect
   nothing. *)
Lemma gateway_connects_nothing_pf : forall m g o capacity s d ps, reachable m g o capacity s -> In d (f_sent (s_dec s)) -> parse m d = Parsed ps -> Forall says_nothing ps.
Proof.
  intros m g o capacity s d ps R I P. destruct (gateway_order_pf m g o capacity s R) as [_ (w & dn & lt & os & st & late & _ & _ & _ & A & E & _)].
  apply alone_empty in A as [F _]. rewrite E in F. apply Forall_app in F as [F _]. rewrite Forall_forall in F.
  destruct (empty_pdus_say_nothing_pf m d (F d I)) as [[_ Q]|(qs & Q & N & _)]; rewrite Q in P; [discriminate P|]. now injection P as <-.
Qed.

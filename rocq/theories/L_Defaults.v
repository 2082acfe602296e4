(** * What untouched builders build (C58) *)
From Coq Require Import ZArith List Bool Lia.
From Verif Require Import Base DisCommon IffWords DisHeader DisLists DisSimman DisLogistics DisWarfare DisEntity DisEmission DisRadio DisIff DisPdu DisPacket SpecSize SpecRelay Parsed ParsedBodies L_Length L_Wire L_Relay Defaults.
Import ListNotations. Open Scope Z_scope.

(** the word that the reader makes of capabilities that are all zero *)
Definition zero_capabilities (v : Z) : EntityCapabilities := if v =? 7 then MkCapabilities AUnspecified 0 else MkCapabilities ALand 0.

Ltac wf_ok := cbv -[Z.le Z.lt Z.add Z.pow]; repeat first [ constructor | lia | discriminate ].
Lemma default_wf v b : In b (default_bodies (zero_capabilities v)) -> wf_body b.
Proof.
  unfold zero_capabilities. intros H. cbn [default_bodies In] in H.
  repeat (destruct H as [<- | H]; [destruct (v =? 7); wf_ok|]). contradiction.
Qed.
Definition zero_status (ty : Z) (o : option PduStatus) : Prop := o = None \/ o = Some (parse_status ty 0).
Lemma marking_marking : marking_ok 11 (MkMarking 1 [77; 97; 114; 107; 105; 110; 103]).
Proof.
  split; [vm_compute; discriminate|]. exists [77; 97; 114; 107; 105; 110; 103]. split; [repeat constructor; lia|]. split; [reflexivity|].
  right. exists [77; 97; 114; 107; 105; 110], 103. split; reflexivity.
Qed.
Lemma empty_marking n : 0 <= n -> marking_ok n (MkMarking 0 []).
Proof. intros H. split; [exact H|]. exists []. split; [constructor|]. split; [reflexivity|left; reflexivity]. Qed.
Ltac fit := hnf; lazymatch goal with
  | |- True => exact I | |- _ /\ _ => split; fit | |- Forall _ _ => apply Forall_nil | |- _ = _ => vm_compute; reflexivity
  | |- _ \/ _ => right; fit | |- exists s, _ => exact (proj2 (empty_marking 31 ltac:(discriminate)))
  | |- _ -> False => let E := fresh in intro E; vm_compute in E; discriminate E
  | |- ?G => idtac G; fail 100 end.
Ltac dig := repeat first [split | apply Forall_nil | reflexivity | lia | discriminate | (intros; discriminate) | (vm_compute; reflexivity)| (vm_compute; discriminate)].
Lemma default_fits v b h : In b (default_bodies (zero_capabilities v)) -> b <> BActionResponseR default_ActionResponseR ->
  1 <= v <= 7 -> h_version h = v -> h_type h = body_type b -> zero_status (body_type b) (h_status h) -> fits_body h b.
Proof.
  unfold zero_capabilities. intros H N Hv Ev Et Es. destruct h as [ve ex ty fa ti le st pa]. cbn [h_version h_type h_status] in *. subst v.
  assert (F : fire_indicator (MkPduHeader ve ex ty fa ti le st pa) = 0 \/ body_type b <> 2).
  { destruct (Z.eq_dec (body_type b) 2) as [E|E]; [left|right; exact E]. rewrite E in Es. destruct Es as [-> | ->]; reflexivity. }
  assert (D : detonation_indicator (MkPduHeader ve ex ty fa ti le st pa) = 0 \/ body_type b <> 3).
  { destruct (Z.eq_dec (body_type b) 3) as [E|E]; [left|right; exact E]. rewrite E in Es. destruct Es as [-> | ->]; reflexivity. }
  clear Es. cbn [default_bodies In] in H.
  destruct H as [<- | H].
  { split; [exact Et|]. cbn [h_version]. split; [reflexivity|]. split; [reflexivity|]. split; [split; reflexivity|]. split; [exact marking_marking|].
    split; [|constructor]. unfold capabilities_ok. cbn [default_EntityState EntityState_capabilities EntityState_entity_type et_kind].
    destruct (ve =? 7); [reflexivity|]. split; [reflexivity|]. destruct (ve =? 6); reflexivity. }
  destruct H as [<- | H]. { split; [exact Et|]. destruct F as [F | F]; [cbn [fits_body]; unfold fits_fire; rewrite F; dig|now elim F]. }
  destruct H as [<- | H]. { split; [exact Et|]. destruct D as [D | D]; [cbn [fits_body]; unfold fits_detonation; rewrite D; dig|now elim D]. }
  clear F D Hv.
  repeat (destruct H as [<- | H]; [first [now elim N | cbn [fits_body body_type h_type] in *; split; [first [exact Et | left; exact Et]|fit] ]|]).
  contradiction.
Qed.
Lemma default_lengths v b m : In b (default_bodies (zero_capabilities v)) ->
  (exists n, body_length m b = WOk [] n /\ 0 <= n <= 1000) /\ 0 <= size_body b <= 1000 /\ claimed_excess b - attribute_padding b <= 12 /\ attribute_padding b = 0.
Proof.
  unfold zero_capabilities. intros H. cbn [default_bodies In] in H.
  repeat (destruct H as [<- | H]; [clear; split; [eexists; split; [destruct m; vm_compute; reflexivity|lia]|vm_compute; repeat split; discriminate]|]). contradiction.
Qed.
Lemma write_zero_status ty : write_status ty (parse_status ty 0) = 0.
Proof.
  unfold write_status, parse_status. repeat match goal with |- context [if ?c then _ else _] => destruct c end; reflexivity.
Qed.
Lemma default_types v b : In b (default_bodies (zero_capabilities v)) -> 1 <= body_type b <= 72.
Proof.
  intros H. cbn [default_bodies In] in H. repeat (destruct H as [<- | H]; [vm_compute; split; discriminate|]). contradiction.
Qed.
Definition with_zero_status (p : Pdu) : Pdu := let h := pdu_header p in
  if h_version h =? 7 then MkPdu (MkPduHeader (h_version h) (h_exercise h) (h_type h) (h_family h) (h_time h) (h_length h) (Some (parse_status (h_type h) 0)) (h_padding h)) (pdu_body p) else p.
Lemma write_without_status m p cap : h_status (pdu_header p) = None -> serialize m p [] cap = serialize m (with_zero_status p) [] cap.
Proof.
  destruct p as [[ve ex ty fa ti le st pa] b]. cbn [pdu_header h_status]. intros ->. unfold with_zero_status. cbn [pdu_header h_version h_exercise h_type h_family h_time h_length h_padding pdu_body].
  destruct (ve =? 7) eqn:E; [|reflexivity].
  unfold serialize, pdu_length. cbn [pdu_body]. destruct (n <- body_length m b;; add16 m 12 n)%write as [l n|]; [|reflexivity]. destruct (cap <? n); [reflexivity|].
  unfold w_pdu, w_header. cbn [pdu_header pdu_body h_version h_exercise h_type h_family h_time h_length h_status]. rewrite E, write_zero_status. reflexivity.
Qed.
(*@C58 Every PDU type has a builder, and what an untouched builder builds - with a header made for any version from 1 to 7, exercise and type, and no status - is finalized, written and read back with the same body, version, exercise and time stamp, whatever the arithmetic. Excepted: Action Response-R, which the reader takes for an Action Response. The capabilities in an entity state are all zero in the form the reader of that version gives them; the repository does not determine the form of the builder (its table is not included). *)
Lemma untouched_builders_read_back_pf : forall m v ex ts cap b,
  In b (default_bodies (if v =? 7 then MkCapabilities AUnspecified 0 else MkCapabilities ALand 0)) -> b <> BActionResponseR default_ActionResponseR ->
  1 <= v <= 7 -> u8 ex -> u32 ts -> 1100 <= cap ->
  exists p bs n q, finalize m (header_new v ex (body_type b)) b ts = WOk [] p /\ serialize m p [] cap = (bs, Written n) /\ zlen bs = 12 + size_body b /\
    parse m bs = Parsed [q] /\ pdu_body q = b /\ h_version (pdu_header q) = v /\ h_exercise (pdu_header q) = ex /\ h_type (pdu_header q) = body_type b /\ h_time (pdu_header q) = ts.
Proof.
  intros m v ex ts cap b Hin Hne Hv Hex Hts Hcap. change (In b (default_bodies (zero_capabilities v))) in Hin.
  pose proof (default_wf v b Hin) as Wb. destruct (default_lengths v b m Hin) as ((n & En & Rn) & Rs & Rc & Ra). pose proof (default_types v b Hin) as Rt.
  set (h := header_new v ex (body_type b)).
  assert (Wh : wf_PduHeader h).
  { unfold wf_PduHeader, h, header_new. cbn. unfold u8, u16, u32 in *. repeat split; try lia. all: unfold family_of; repeat match goal with |- context [if ?c then _ else _] => destruct c end; lia. }
  assert (exists p, finalize m h b ts = WOk [] p) as [p Ep].
  { unfold finalize, wbind, wret, with_length. rewrite En. unfold wbind, wret, add16, arith. replace (0 <=? 12 + n) with true by lia. replace (12 + n <? 65536) with true by lia. eexists; reflexivity. }
  destruct (C08_finalize_pf m h b ts p Wb Ep) as (Eb & Ety & Ef & Ets & (n' & En' & El & Elen & _) & Ev & Ex & Es & Epd).
  assert (n' = n) as -> by congruence.
  pose proof (finalize_wf m h b ts p Wh Wb Hts Ep) as [Wph Wpb].
  set (q := with_zero_status p).
  assert (Eqb : pdu_body q = b) by (unfold q, with_zero_status; destruct (_ =? 7); [exact Eb|exact Eb]).
  assert (Wq : wf_Pdu q).
  { unfold q, with_zero_status. destruct (_ =? 7); split; [exact Wph|exact Wpb|exact Wph|exact Wpb]. }
  assert (Fq : fits_Pdu q).
  { split.
    - unfold fits_header, q, with_zero_status. rewrite Ev. change (h_version h) with v.
      destruct (v =? 7) eqn:E7; cbn [pdu_header h_padding h_version h_status h_type].
      + split; [exact Epd|]. rewrite ?Ev. change (h_version h) with v in *. replace (rng 1 6 v) with false by (symmetry; apply rng_false; lia). rewrite E7.
        eexists; split; [reflexivity|]. rewrite Ety. apply parse_status_ok; unfold u8; lia.
      + split; [exact Epd|]. rewrite ?Ev. change (h_version h) with v in *. replace (rng 1 6 v) with true by (symmetry; apply rng_true; lia). exact Es.
    - rewrite Eqb. apply (default_fits v); try assumption; unfold q, with_zero_status; rewrite Ev; change (h_version h) with v; destruct (v =? 7); cbn [pdu_header h_version h_type h_status].
      all: first [reflexivity | exact Ev | exact Ety | right; now rewrite Ety | left; exact Es]. }
  assert (Sq : size_pdu q = 12 + size_body b) by (unfold size_pdu; now rewrite Eqb).
  assert (Hz : sized (pdu_body q)) by (apply C06_fitting_pdus_are_sized_pf; assumption).
  destruct (C06_serialize_accounting_pf m q [] cap Wq Hz) as (bs & Ew & Zl & _); [lia|rewrite Eqb; lia|].
  exists p, bs. eexists. exists q. split; [exact Ep|]. split; [rewrite write_without_status by exact Es; exact Ew|]. split; [lia|].
  split; [eapply C09_parse_serialize_pf; try eassumption; lia|]. split; [exact Eqb|].
  unfold q, with_zero_status. destruct (_ =? 7); cbn [pdu_header h_version h_exercise h_type h_time]; repeat split; try assumption; congruence.
Qed.
(*@C58 There is one such default for every PDU type that the library reads into a body of its own, and for no other type. *)
Lemma defaults_for_every_type_pf : forall caps ty, (exists b, In b (default_bodies caps) /\ body_type b = ty) <-> In ty implemented_types.
Proof.
  intros caps ty. transitivity (In ty (map body_type (default_bodies caps))).
  - rewrite in_map_iff. split; intros (b & H & H'); exists b; tauto.
  - cbn [default_bodies map body_type]. unfold implemented_types. cbn [In]. tauto.
Qed.
(*@C58 The exception: an untouched Action Response-R builder comes back as an Action Response. *)
Lemma untouched_action_response_r_refuted_pf : exists p bs q, finalize Checked (header_new 7 1 57) (BActionResponseR default_ActionResponseR) 1000 = WOk [] p /\
  serialize Checked p [] 1100 = (bs, Written 40) /\ parse Checked bs = Parsed [q] /\ pdu_body q = BActionResponse default_ActionResponse.
Proof. do 3 eexists. split; [reflexivity|]. split; [vm_compute; reflexivity|]. split; [vm_compute; reflexivity|reflexivity]. Qed.
(** what an untouched builder writes after the header *)
Definition default_octets (b : PduBody) : list Z :=
  if body_type b =? 1 then repeat 0 116 ++ [1; 77; 97; 114; 107; 105; 110; 103; 32; 32; 32; 32] ++ repeat 0 4
  else if body_type b =? 33 then repeat 0 21 ++ repeat 32 31 ++ repeat 0 72
  else repeat 0 (Z.to_nat (size_body b)).
Lemma default_written m v b : In b (default_bodies (zero_capabilities v)) -> 1 <= v <= 7 ->
  match w_body m v b with WOk bs _ => bs = default_octets b | WPanic => False end.
Proof.
  intros H Hv. assert (C : v = 1 \/ v = 2 \/ v = 3 \/ v = 4 \/ v = 5 \/ v = 6 \/ v = 7) by lia. clear Hv.
  destruct (Z.eq_dec (body_type b) 1) as [E1|E1]; [|destruct (Z.eq_dec (body_type b) 25) as [E2|E2]].
  - assert (b = BEntityState (default_EntityState (zero_capabilities v))) as ->.
    { cbn [default_bodies In] in H. destruct H as [<- | H]; [reflexivity|]. clear - H E1. repeat (destruct H as [<- | H]; [discriminate E1|]). contradiction. }
    clear - C. destruct C as [->|[->|[->|[->|[->|[->| ->]]]]]]; destruct m; vm_compute; reflexivity.
  - assert (b = BTransmitter default_Transmitter) as ->.
    { cbn [default_bodies In] in H. clear - H E2. repeat (destruct H as [<- | H]; [first [reflexivity|discriminate E2]|]). contradiction. }
    clear - C. destruct C as [->|[->|[->|[->|[->|[->| ->]]]]]]; destruct m; vm_compute; reflexivity.
  - clear C. cbn [default_bodies In] in H.
    repeat (destruct H as [<- | H]; [first [now elim E1 | now elim E2 | clear E1 E2; destruct m; vm_compute; reflexivity]|]). contradiction.
Qed.
(*@C58 The default of every member is nothing: an untouched builder writes zeros only after the header, but for the word Marking in the ASCII character set in an entity state, and the blanks that fill markings. *)
Lemma untouched_builders_write_zeros_pf : forall m v ex ts cap b p bs n,
  In b (default_bodies (if v =? 7 then MkCapabilities AUnspecified 0 else MkCapabilities ALand 0)) -> 1 <= v <= 7 ->
  finalize m (header_new v ex (body_type b)) b ts = WOk [] p -> serialize m p [] cap = (bs, Written n) ->
  exists header, zlen header = 12 /\ bs = header ++
    if body_type b =? 1 then repeat 0 116 ++ [1; 77; 97; 114; 107; 105; 110; 103; 32; 32; 32; 32] ++ repeat 0 4
    else if body_type b =? 33 then repeat 0 21 ++ repeat 32 31 ++ repeat 0 72
    else repeat 0 (Z.to_nat (size_body b)).
Proof.
  intros m v ex ts cap b p bs n Hin Hv Ep Es. change (In b (default_bodies (zero_capabilities v))) in Hin.
  destruct (C08_finalize_pf _ _ _ _ _ (default_wf v b Hin) Ep) as (Eb & _ & _ & _ & _ & Ev & _).
  pose proof (default_written m v b Hin Hv) as Ek. change (h_version (header_new v ex (body_type b))) with v in Ev.
  unfold serialize in Es. destruct (pdu_length m p) as [l len|]; [|discriminate]. destruct (cap <? len); [discriminate|].
  unfold w_pdu in Es. destruct p as [h b']; cbn [pdu_header pdu_body] in *. subst b' v.
  destruct (L_Length.Wr_header h) as (hd & Eh & Zh). rewrite Eh in Es. unfold wbind in Es.
  destruct (w_body m (h_version h) b) as [bs' k|]; [|contradiction]. subst bs'.
  destruct (add16 m 12 k) as [l' k'|] eqn:Ea; [|discriminate].
  assert (l' = []) as ->. { revert Ea. unfold add16, arith. destruct (_ && _); [|destruct m]; unfold wret, wpanic; intros [=]; auto. }
  rewrite app_nil_r in Es. injection Es as <- _. exists hd. split; [exact Zh|reflexivity].
Qed.
(*@ex*)
Example untouched_builders_example : length (default_bodies (MkCapabilities AUnspecified 0)) = 52%nat /\ In (BTransmitter default_Transmitter) (default_bodies (MkCapabilities AUnspecified 0)) /\
  exists p bs, finalize Checked (header_new 7 1 26) (BSignal default_Signal) 1000 = WOk [] p /\ serialize Checked p [] 1100 = (bs, Written 32) /\
    bs = [7; 1; 26; 4; 0; 0; 3; 232; 0; 32; 0; 0] ++ repeat 0 20.
Proof.
  split; [reflexivity|]. split; [cbn [default_bodies In]; tauto|]. do 2 eexists. split; [reflexivity|]. split; vm_compute; reflexivity.
Qed.
Lemma Gives_body_kept m : Gives (p_pdu m) (fun p => relay_ok (pdu_header p) (pdu_body p) -> fits_body (pdu_header p) (pdu_body p)).
Proof.
  unfold p_pdu. eapply Gives_bind; [apply G_header|]. intros h [Wh _]. eapply Gives_bind; [apply (G_body m h); unfold wf_PduHeader in Wh; tauto|].
  intros b [_ Fb]. apply Gives_ret. exact Fb.
Qed.
(*@C58 Which capabilities the untouched entity state builder must have to come back: in a version 7 PDU no octets are read as that entity state unless its capabilities are Unspecified and zero; in a version 6 PDU, unless they are those of a land platform. Should the default of the generated enumeration be another, the untouched entity state does not come back as it was. *)
Lemma untouched_entity_state_capabilities_pf : forall m i ps q caps, bytes i -> parse m i = Parsed ps -> In q ps ->
  pdu_body q = BEntityState (default_EntityState caps) ->
  (h_version (pdu_header q) = 7 -> caps = MkCapabilities AUnspecified 0) /\ (h_version (pdu_header q) = 6 -> ec_kind caps = ALand).
Proof.
  intros m i ps q caps B E Hq Eb. apply parse_iff in E. destruct E as (_ & rest & S).
  assert (F : relay_ok (pdu_header q) (pdu_body q) -> fits_body (pdu_header q) (pdu_body q)).
  { clear Eb. induction S as [|i r a l rest E S IH]; [destruct Hq|]. destruct (Gives_body_kept m _ _ _ B E) as [Br Ha]. destruct Hq as [<-|Hq]; [exact Ha|exact (IH Br Hq)]. }
  rewrite Eb in F. 
  assert (R : h_version (pdu_header q) = 6 \/ h_version (pdu_header q) = 7 -> relay_ok (pdu_header q) (BEntityState (default_EntityState caps))).
  { intros V. unfold relay_ok. cbn [relayable_body]. split; [vm_compute; discriminate|]. do 3 (split; [constructor|]).
    split; [|tauto]. constructor; [vm_compute; discriminate|constructor]. }
  split; intros V; destruct (F (R ltac:(auto))) as (_ & _ & _ & _ & _ & C & _); unfold capabilities_ok in C; rewrite V in C; cbn in C; [exact C|exact (proj1 C)].
Qed.
(*@ex*)
Example untouched_entity_state_example : let octets := [7; 1; 1; 1; 0; 0; 3; 232; 0; 144; 0; 0] ++ repeat 0 116 ++ [1; 77; 97; 114; 107; 105; 110; 103; 32; 32; 32; 32] ++ [0; 0; 0; 9] in
  bytes octets /\ parse Checked octets = Parsed [MkPdu (MkPduHeader 7 1 1 1 1000 144 (Some (parse_status 1 0)) 0) (BEntityState (default_EntityState (MkCapabilities AUnspecified 0)))].
Proof. split; [cbn; repeat constructor; vm_compute; discriminate|vm_compute; reflexivity]. Qed.

(** * C31, C32: the C-DIS decoder over histories; independence of subjects *)
From Coq Require Import ZArith List Lia Bool SpecFloat.
From Verif Require Import Base CdisBase DisCommon DisHeader DisLists DisSimman DisLogistics DisWarfare DisEntity DisEmission DisRadio DisIff DisText DisPdu DisPacket
  CdisRecords CdisBodies1 CdisBodies2 CdisIff CdisPdu CdisCodec1 CdisCodec2 CdisCodec3 SpecCodec L_Codec.
Import ListNotations. Open Scope Z_scope.

Definition dsame (s : Subject) (a b : DecState) : Prop :=
  match s with
  | SuEntity k => dn_es a k = dn_es b k
  | SuEmission k => dn_ee a k = dn_ee b k
  | SuDesignator k => dn_des a k = dn_des b k
  | SuRadio k n => dn_tx a (k, n) = dn_tx b (k, n)
  | SuIff k => dn_iff a k = dn_iff b k
  end.
Lemma dsame_refl s a : dsame s a a. Proof. destruct s; reflexivity. Qed.
Lemma eid_eqb_false a b : a <> b -> eid_eqb a b = false.
Proof. intros H. destruct (eid_eqb a b) eqn:E; [|reflexivity]. apply eid_eqb_eq in E. contradiction. Qed.
Lemma radio_eqb_refl k : radio_eqb k k = true.
Proof. destruct k as [i n]. unfold radio_eqb. cbn. now rewrite eid_eqb_refl, Z.eqb_refl. Qed.
Lemma radio_eqb_false a b : a <> b -> radio_eqb a b = false.
Proof. destruct a as [i n], b as [j k]. unfold radio_eqb. cbn. intros H. destruct (eid_eqb i j) eqn:E; [|reflexivity]. apply eid_eqb_eq in E. subst. cbn. destruct (Z.eqb_spec n k); congruence. Qed.
Lemma put_same {K V} eqb (k : K) (v : V) f : eqb k k = true -> put_at eqb k v f k = Some v.
Proof. intros H. unfold put_at. now rewrite H. Qed.
Lemma put_diff {K V} eqb (k k' : K) (v : V) f : eqb k k' = false -> put_at eqb k v f k' = f k'.
Proof. intros H. unfold put_at. now rewrite H. Qed.

(** ** One step of the decoder *)
Definition d_out (x : PduBody * StateResult * DecState) : PduBody := fst (fst x).
Definition d_state (x : PduBody * StateResult * DecState) : DecState := snd x.
Lemma dec_other g o st b s : csubject b <> Some s -> dsame s st (d_state (dec_body g o st b)).
Proof.
  intros H. destruct b; cbn [csubject] in H; cbn [dec_body d_state]; try apply dsame_refl.
  all: match goal with |- context [let (_, _) := ?e in _] => destruct e as [d []] end; cbn [d_state snd]; try apply dsame_refl.
  all: destruct s as [k|k|k|k n|k]; cbn [dsame dn_es dn_ee dn_des dn_tx dn_iff]; try reflexivity; symmetry; apply put_diff.
  all: try (apply eid_eqb_false; congruence).
  apply radio_eqb_false; congruence.
Qed.
Lemma dec_same g o st1 st2 b s : csubject b = Some s -> dsame s st1 st2 ->
  fst (dec_body g o st1 b) = fst (dec_body g o st2 b) /\ dsame s (d_state (dec_body g o st1 b)) (d_state (dec_body g o st2 b)).
Proof.
  intros H Hs. destruct b; cbn [csubject] in H; try discriminate; injection H as <-; cbn [dsame] in Hs; cbn [dec_body]; rewrite Hs.
  all: match goal with |- context [let (_, _) := ?e in _] => destruct e as [d []] end; cbn [d_state fst snd dsame dn_es dn_ee dn_des dn_tx dn_iff]; split; try reflexivity; try exact Hs.
  all: rewrite !put_same by (first [apply eid_eqb_refl|apply radio_eqb_refl]); reflexivity.
Qed.
Lemma dec_plain g o st1 st2 b : csubject b = None -> fst (dec_body g o st1 b) = fst (dec_body g o st2 b).
Proof. destruct b; cbn [csubject]; intros H; try discriminate; reflexivity. Qed.
Lemma dec_unflagged g o st b : o_partial o = true -> flagged_full b = false -> d_state (dec_body g o st b) = st.
Proof.
  intros Hp H. destruct b; cbn [flagged_full] in H; try reflexivity; cbn [dec_body].
  all: unfold dec_es, dec_ee, dec_designator, dec_transmitter, dec_iff; rewrite H, ?Hp; reflexivity.
Qed.
Definition dec_none (st : DecState) (s : Subject) : Prop :=
  match s with SuEntity k => dn_es st k = None | SuEmission k => dn_ee st k = None | SuDesignator k => dn_des st k = None | SuRadio k n => dn_tx st (k, n) = None | SuIff k => dn_iff st k = None end.
Definition dec_rep (st : DecState) (s : Subject) (f first : PduBody) : Prop :=
  match s, f with
  | SuEntity k, BEntityState x => exists y, first = BEntityState y /\ dn_es st k =
      Some (MkDecES (EntityState_force_id x) (EntityState_entity_type x) (EntityState_location x) (EntityState_orientation x) (EntityState_appearance x) (EntityState_marking y))
  | SuEmission k, BElectromagneticEmission x => dn_ee st k = Some (upd_dec_ee x)
  | SuDesignator k, BDesignator x => dn_des st k = Some (upd_designator x)
  | SuRadio k n, BTransmitter x => dn_tx st (k, n) = Some (upd_transmitter x)
  | SuIff k, BIff x => exists y, first = BIff y /\ dn_iff st k = Some (Iff_system_id y)
  | _, _ => False
  end.
Lemma dsame_none s a b : dsame s a b -> dec_none a s -> dec_none b s.
Proof. destruct s; cbn; congruence. Qed.
Lemma dsame_rep s a b f y : dsame s a b -> dec_rep a s f y -> dec_rep b s f y.
Proof. destruct s, f; cbn; try tauto; try congruence; intros H (z & -> & Hz); exists z; split; try reflexivity; congruence. Qed.
Lemma dec_flagged g o st b s : o_partial o = true -> csubject b = Some s -> flagged_full b = true ->
  let d := d_out (dec_body g o st b) in let st' := d_state (dec_body g o st b) in
  (dec_none st s -> dec_rep st' s d d) /\ forall f y, dec_rep st s f y -> dec_rep st' s d y.
Proof.
  intros Hp Hs Hf. destruct b; cbn [csubject] in Hs; try discriminate; injection Hs as <-; cbn [flagged_full] in Hf; cbn [dec_body];
    unfold dec_es, dec_ee, dec_designator, dec_transmitter, dec_iff; rewrite Hf, ?Hp; cbn [andb d_out d_state fst snd dec_none dec_rep dn_es dn_ee dn_des dn_tx dn_iff];
    rewrite !put_same by (first [apply eid_eqb_refl|apply radio_eqb_refl]); cbv zeta.
  - split.
    + intros ->. eexists. split; [reflexivity|]. reflexivity.
    + intros f y. destruct f; try tauto. intros (z & -> & ->). exists z. split; reflexivity.
  - split; [reflexivity|]. intros f y _. reflexivity.
  - split; [reflexivity|]. intros f y _. reflexivity.
  - split; [reflexivity|]. intros f y _. reflexivity.
  - split.
    + intros ->. eexists. split; [reflexivity|]. reflexivity.
    + intros f y. destruct f; try tauto. intros (z & -> & ->). exists z. split; reflexivity.
Qed.
Lemma decode_step_some m g o st c p st' : decode_step m g o st c = Some (p, st') ->
  pdu_body p = d_out (dec_body g o st (cp_body c)) /\ st' = d_state (dec_body g o st (cp_body c)).
Proof.
  unfold decode_step, decode. destruct (dec_body g o st (cp_body c)) as [[b r] st2]. unfold finalize, wbind, wret, d_out, d_state. cbn [fst snd].
  destruct (body_length m b) as [? n|]; [|discriminate]. destruct (with_length _ _ _) as [? h|]; [|discriminate]. intros H. injection H as <- <-. auto.
Qed.
(** the result depends on the state only through the body *)
Lemma decode_step_fst m g o st1 st2 c p st' : fst (dec_body g o st1 (cp_body c)) = fst (dec_body g o st2 (cp_body c)) ->
  decode_step m g o st1 c = Some (p, st') -> decode_step m g o st2 c = Some (p, d_state (dec_body g o st2 (cp_body c))).
Proof.
  unfold decode_step, decode. destruct (dec_body g o st1 (cp_body c)) as [[b r] s1], (dec_body g o st2 (cp_body c)) as [[b' r'] s2]. cbn [fst]. intros H. injection H as <- <-.
  unfold finalize, wbind, wret, d_state. cbn [snd]. destruct (body_length m b) as [? n|]; [|discriminate]. destruct (with_length _ _ _) as [? h|]; [|discriminate]. intros H. injection H as <- <-. reflexivity.
Qed.

(** ** Histories *)
Lemma rnever_snoc s h e : never_received_full s h -> ~ full_received s e -> never_received_full s (h ++ [e]).
Proof. intros H He. apply Forall_app. split; [exact H|]. constructor; [exact He|constructor]. Qed.
Lemma rlast_snoc_other s h e d : last_received_full s h d -> ~ full_received s e -> last_received_full s (h ++ [e]) d.
Proof. intros (h1 & c & p & h2 & -> & Hf & Hn & Hd) He. exists h1, c, p, (h2 ++ [e]). rewrite <- app_assoc. repeat split; try apply Hf; try exact Hd. now apply rnever_snoc. Qed.
Lemma rlast_snoc_same s h c p : full_received s (c, p) -> last_received_full s (h ++ [(c, p)]) (pdu_body p).
Proof. intros H. exists h, c, p, []. repeat split; try apply H. constructor. Qed.
Lemma rfirst_snoc s h e d : first_received_full s h d -> first_received_full s (h ++ [e]) d.
Proof. intros (h1 & c & p & h2 & -> & Hf & Hn & Hd). exists h1, c, p, (h2 ++ [e]). rewrite <- app_assoc. repeat split; try apply Hf; try exact Hd. exact Hn. Qed.
Lemma rfirst_snoc_same s h c p : never_received_full s h -> full_received s (c, p) -> first_received_full s (h ++ [(c, p)]) (pdu_body p).
Proof. intros Hn H. exists h, c, p, []. repeat split; try apply H. exact Hn. Qed.
Lemma rlast_unique s h d d' : last_received_full s h d -> last_received_full s h d' -> d = d'.
Proof.
  intros (h1 & c & p & h2 & -> & Hf & Hn & <-) (h1' & c' & p' & h2' & He & Hf' & Hn' & <-). revert h1' He.
  induction h1 as [|a h1 IH]; intros [|b h1'] He; cbn [app] in He.
  - injection He as _ -> _. auto.
  - injection He as _ ->. exfalso. unfold never_received_full in Hn. rewrite Forall_app in Hn. destruct Hn as [_ Hn]. inversion Hn. auto.
  - injection He as _ <-. exfalso. unfold never_received_full in Hn'. rewrite Forall_app in Hn'. destruct Hn' as [_ Hn']. inversion Hn'. auto.
  - injection He as _ He. eauto.
Qed.
Lemma rfirst_unique s h d d' : first_received_full s h d -> first_received_full s h d' -> d = d'.
Proof.
  intros (h1 & c & p & h2 & -> & Hf & Hn & <-) (h1' & c' & p' & h2' & He & Hf' & Hn' & <-). revert h1' He Hn'. unfold never_received_full in *.
  induction Hn as [|a h1 Ha Hn IH]; intros [|b h1'] He Hn'; cbn [app] in He.
  - injection He as _ -> _. auto.
  - injection He as <- _. inversion Hn'. contradiction.
  - injection He as -> _. contradiction.
  - injection He as _ He. inversion Hn'. eauto.
Qed.
Lemma rnever_not_last s h d : never_received_full s h -> ~ last_received_full s h d.
Proof. intros Hn (h1 & c & p & h2 & -> & Hf & _). unfold never_received_full in Hn. rewrite Forall_app in Hn. destruct Hn as [_ Hn]. inversion Hn. auto. Qed.
Lemma rnever_not_first s h d : never_received_full s h -> ~ first_received_full s h d.
Proof. intros Hn (h1 & c & p & h2 & -> & Hf & _). unfold never_received_full in Hn. rewrite Forall_app in Hn. destruct Hn as [_ Hn]. inversion Hn. auto. Qed.

Definition dec_inv (o : Options) (st : DecState) (h : Received) : Prop :=
  o_partial o = true -> forall s, (dec_none st s /\ never_received_full s h) \/
    exists f y, last_received_full s h f /\ first_received_full s h y /\ dec_rep st s f y.
Lemma dec_step_inv m g o h st c p st' : dec_inv o st h -> decode_step m g o st c = Some (p, st') -> dec_inv o st' (h ++ [(c, p)]).
Proof.
  intros Hi He Hp s. specialize (Hi Hp s). apply decode_step_some in He. destruct He as [Hb ->].
  assert ((csubject (cp_body c) = Some s /\ flagged_full (cp_body c) = true) \/ (~ full_received s (c, p) /\ dsame s st (d_state (dec_body g o st (cp_body c))))) as [[Hs Hf]|[Hn Hd]].
  { destruct (flagged_full (cp_body c)) eqn:Ef.
    - destruct (csubject (cp_body c)) as [s0|] eqn:Es.
      + destruct (subj_eqb s0 s) eqn:Eq; [apply subj_eqb_eq in Eq; subst; auto|]. right. assert (s0 <> s) by (intros ->; rewrite subj_eqb_refl in Eq; discriminate).
        split; [intros [H0 _]; cbn in H0; congruence|apply dec_other; congruence].
      + right. split; [intros [H0 _]; cbn in H0; congruence|apply dec_other; congruence].
    - right. split; [intros [_ H0]; cbn in H0; congruence|]. rewrite dec_unflagged by assumption. apply dsame_refl. }
  - destruct (dec_flagged g o st _ s Hp Hs Hf) as [H1 H2]. cbv zeta in H1, H2. rewrite <- Hb in H1, H2. right. exists (pdu_body p).
    destruct Hi as [[Hi Hn]|(f & y & Hl & Hy & Hr)].
    + exists (pdu_body p). split; [now apply rlast_snoc_same|]. split; [now apply rfirst_snoc_same|auto].
    + exists y. split; [now apply rlast_snoc_same|]. split; [now apply rfirst_snoc|eauto].
  - destruct Hi as [[Hi Hv]|(f & y & Hl & Hy & Hr)].
    + left. split; [eapply dsame_none; eauto|now apply rnever_snoc].
    + right. exists f, y. split; [now apply rlast_snoc_other|]. split; [now apply rfirst_snoc|eapply dsame_rep; eauto].
Qed.
Lemma dec_inv_run m g o l ps st : decode_all m g o l = Some (ps, st) -> dec_inv o st (combine l ps).
Proof.
  intros H. revert l ps st H. apply run_ind.
  - intros _ s. left. split; [destruct s; reflexivity|constructor].
  - intros h st c p st'. apply dec_step_inv.
Qed.

(** ** C31 *)
Lemma last_match_spec {A} (f : A -> bool) l a : In a l -> f a = true -> (forall a', In a' l -> f a' = true -> a' = a) -> last_match f l = Some a.
Proof.
  intros Hi Hf Hu. induction l as [|b l IH]; [destruct Hi|]. cbn [last_match].
  destruct (last_match f l) as [c|] eqn:E.
  - assert (In c l /\ f c = true) as [Hc Hfc].
    { clear -E. induction l as [|d l IH]; [discriminate|]. cbn [last_match] in E. destruct (last_match f l) as [e|]; [injection E as ->; destruct (IH eq_refl); split; [right; assumption|assumption]|].
      destruct (f d) eqn:Ed; [|discriminate]. injection E as ->. split; [left; reflexivity|exact Ed]. }
    f_equal. apply Hu; [right|]; assumption.
  - destruct Hi as [->|Hi]; [rewrite Hf; reflexivity|]. exfalso. assert (None = Some a) as X by (apply IH; [exact Hi|intros a' Ha'; apply Hu; now right]). discriminate.
Qed.
Lemma system_at_spec f n e : the_system f n e -> system_at f n = Some e.
Proof.
  intros (Hi & Hn & Hu). apply last_match_spec; [exact Hi|apply Z.eqb_eq; exact Hn|]. intros a' Ha' Ht. apply Hu; [exact Ha'|]. now apply Z.eqb_eq.
Qed.
Lemma beams_of_in f s b : In (s, b) (beams_of f) <-> exists e, In e (EE_systems f) /\ es_number e = s /\ In b (es_beams e).
Proof.
  unfold beams_of. rewrite in_flat_map. split.
  - intros (e & He & H). apply in_map_iff in H. destruct H as (b' & H & Hb). injection H as <- ->. eauto.
  - intros (e & He & <- & Hb). exists e. split; [exact He|]. apply in_map_iff. eauto.
Qed.
Lemma beam_at_spec f n k b : the_beam f n k b -> beam_at f n k = Some b.
Proof.
  intros [(e & He & Hn & Hb & Hk) Hu]. unfold beam_at. rewrite (last_match_spec _ _ (n, b)); [reflexivity| | |].
  - apply beams_of_in. eauto.
  - cbn. now rewrite Hk, !Z.eqb_refl.
  - intros [n' b'] Hi Ht. cbn in Ht. apply andb_true_iff in Ht. rewrite !Z.eqb_eq in Ht. destruct Ht as [-> Hk']. f_equal. apply Hu.
    apply beams_of_in in Hi. destruct Hi as (e' & ? & ? & ?). exists e'. auto.
Qed.
Lemma Forall2_map_r {A B} (R : A -> B -> Prop) (f : A -> B) l : (forall a, R a (f a)) -> Forall2 R l (map f l).
Proof. intros H. induction l; cbn; constructor; auto. Qed.
Lemma dec_inherits g o st b s f y : o_partial o = true -> csubject b = Some s -> flagged_full b = false -> dec_rep st s f y ->
  match s with SuIff _ => True | _ => inherits b (d_out (dec_body g o st b)) f end.
Proof.
  intros Hp Hs Hf Hr. destruct b; cbn [csubject] in Hs; try discriminate; injection Hs as <-; cbn [flagged_full] in Hf; cbn [dec_rep] in Hr; destruct f; try (destruct Hr; fail); try exact I; cbn [dec_body].
  - destruct Hr as (z & -> & Hr). rewrite Hr. unfold dec_es. rewrite Hf, Hp. cbn. unfold inherits_es, absent. cbn. repeat split; intros ->; reflexivity.
  - rewrite Hr. unfold dec_ee. rewrite Hf, Hp. cbn [andb negb d_out fst inherits EE_systems]. apply Forall2_map_r. intros c. split.
    + intros e He. unfold dec_esys. cbn [de_fields upd_dec_ee]. rewrite (system_at_spec _ _ _ He). cbn. unfold absent. repeat split; intros ->; reflexivity.
    + unfold dec_esys. destruct (unopt _ _) as [[n fn] l]. cbn [es_beams]. apply Forall2_map_r. intros cb b Hb. unfold dec_eb. cbn [de_params de_beams upd_dec_ee be_parameters be_data].
      rewrite (beam_at_spec _ _ _ _ Hb). cbn. unfold absent. split; intros ->; reflexivity.
  - rewrite Hr. unfold dec_designator. rewrite Hf. cbn. unfold inherits_designator, absent. cbn. repeat split; intros ->; reflexivity.
  - rewrite Hr. unfold dec_transmitter. rewrite Hf, Hp. cbn. unfold inherits_transmitter, absent. cbn. repeat split; intros ->; reflexivity.
Qed.
(*@C31
 Over every history of C-DIS PDUs given to one decoder in partial update mode: a partial Entity State, Emission, Designator or Transmitter PDU decodes
 to a PDU in which every static field it does not carry is that of the last full update received for the same entity (radio), whatever came in
 between: force, type, location, orientation, appearance; per system number name, function, location and per beam number fundamental parameters and
 beam data; code name, code, power, wavelength, spot location; radio type, antenna location, frequency, bandwidth, power, modulation. *)
Lemma cdis_partial_update_inherits_pf : forall m g o l outs st,
  o_partial o = true -> decode_all m g o l = Some (outs, st) ->
  forall h1 c p h2 s f, combine l outs = h1 ++ (c, p) :: h2 -> csubject (cp_body c) = Some s -> (forall k, s <> SuIff k) -> flagged_full (cp_body c) = false ->
  last_received_full s h1 f -> inherits (cp_body c) (pdu_body p) f.
Proof.
  intros m g o l outs st Hp Hr h1 c p h2 s f Hc Hs Hk Hf Hl. destruct (run_split _ _ _ _ _ _ _ _ _ Hr Hc) as (s1 & s2 & H1 & H2).
  pose proof (dec_inv_run m g o _ _ _ H1 Hp s) as Hi. rewrite combine_map_id in Hi. apply decode_step_some in H2. destruct H2 as [-> _].
  destruct Hi as [[_ Hn]|(f' & y & Hl' & _ & Hrep)]; [destruct (rnever_not_last _ _ _ Hn Hl)|]. rewrite (rlast_unique _ _ _ _ Hl Hl').
  pose proof (dec_inherits g o s1 _ s f' y Hp Hs Hf Hrep) as X. destruct s; try exact X. destruct (Hk id eq_refl).
Qed.
(*@C31
 A full update decodes the same whatever came before it. *)
Lemma cdis_full_update_stateless_pf : forall g o st1 st2 b, flagged_full b = true -> fst (dec_body g o st1 b) = fst (dec_body g o st2 b).
Proof.
  intros g o st1 st2 b Hf. destruct b; try reflexivity; cbn [flagged_full] in Hf; cbn [dec_body];
    unfold dec_es, dec_ee, dec_designator, dec_transmitter, dec_iff; rewrite Hf, ?andb_false_r; cbn [negb]; rewrite ?andb_false_r, ?andb_true_r; cbn [fst]; f_equal.
Qed.
(** the fields a partial Entity State update always carries *)
Definition same_dynamic_es (d e : EntityState) : Prop :=
  EntityState_entity_id d = EntityState_entity_id e /\ EntityState_alternative_entity_type d = EntityState_alternative_entity_type e /\
  EntityState_velocity d = EntityState_velocity e /\ EntityState_dr d = EntityState_dr e /\
  EntityState_variable_parameters d = EntityState_variable_parameters e.
(*@C31
 What an Entity State PDU does carry (dynamic fields, and static fields that are present) decodes the same whatever came before it; the capabilities, whose
 meaning depends on the entity type, do so when the type is present. *)
Lemma cdis_carried_fields_stateless_pf : forall g o st1 st2 x, exists d e,
  fst (fst (dec_body g o st1 (CBEntityState x))) = BEntityState d /\ fst (fst (dec_body g o st2 (CBEntityState x))) = BEntityState e /\ same_dynamic_es d e /\
  (present (CEntityState_force x) -> EntityState_force_id d = EntityState_force_id e) /\
  (present (CEntityState_etype x) -> EntityState_entity_type d = EntityState_entity_type e /\ EntityState_capabilities d = EntityState_capabilities e) /\
  (present (CEntityState_location x) -> EntityState_location d = EntityState_location e) /\
  (present (CEntityState_orientation x) -> EntityState_orientation d = EntityState_orientation e) /\
  (present (CEntityState_appearance x) -> ea_word (EntityState_appearance d) = ea_word (EntityState_appearance e)) /\
  (present (CEntityState_marking x) -> EntityState_marking d = EntityState_marking e).
Proof.
  intros g o st1 st2 x. cbn [dec_body]. destruct (dec_es g o (dn_es st1 _) x) as [d u1] eqn:E1, (dec_es g o (dn_es st2 _) x) as [e u2] eqn:E2. exists d, e. cbn [fst].
  unfold dec_es in E1, E2. injection E1 as <- _. injection E2 as <- _. unfold same_dynamic_es, present. cbn. repeat split.
  all: intros; lazymatch goal with H : ?a <> None |- _ => destruct a; [reflexivity|congruence] end.
Qed.
(*@C31
 The marking a partial Entity State update decodes to is that of the FIRST full update received for the entity, not that of the last: the decoder never
 updates the marking it keeps. *)
Lemma cdis_partial_update_marking_pf : forall m g o l outs st,
  o_partial o = true -> decode_all m g o l = Some (outs, st) ->
  forall h1 c p h2 x d f, combine l outs = h1 ++ (c, p) :: h2 -> cp_body c = CBEntityState x -> pdu_body p = BEntityState d ->
  CEntityState_full x = false -> absent (CEntityState_marking x) -> first_received_full (SuEntity (EntityState_entity_id d)) h1 (BEntityState f) ->
  EntityState_marking d = EntityState_marking f.
Proof.
  intros m g o l outs st Hp Hr h1 c p h2 x d f Hc Hx Hd Hf Ha Hy. destruct (run_split _ _ _ _ _ _ _ _ _ Hr Hc) as (s1 & s2 & H1 & H2).
  apply decode_step_some in H2. destruct H2 as [Hb _]. rewrite Hd, Hx in Hb. cbn [dec_body] in Hb. destruct (dec_es _ _ _ _) as [d' u] eqn:E. cbn in Hb. injection Hb as ->.
  assert (EntityState_entity_id d' = dec_eid (CEntityState_id x)) as Hid by (unfold dec_es in E; injection E as <- _; reflexivity). rewrite Hid in Hy.
  pose proof (dec_inv_run m g o _ _ _ H1 Hp (SuEntity (dec_eid (CEntityState_id x)))) as Hi. rewrite combine_map_id in Hi.
  destruct Hi as [[_ Hn]|(f' & y & _ & Hy' & Hrep)]; [destruct (rnever_not_first _ _ _ Hn Hy)|]. pose proof (rfirst_unique _ _ _ _ Hy Hy') as <-.
  cbn [dec_rep] in Hrep. destruct f'; try (destruct Hrep; fail). destruct Hrep as (z & Hz & Hrep). injection Hz as <-. rewrite Hrep in E. unfold dec_es in E. rewrite Hf, Hp in E. unfold absent in Ha. rewrite Ha in E.
  cbn in E. injection E as <- _. reflexivity.
Qed.
(*@C31
 Before any full update was received for its entity, a partial update gets default values for the static fields it does not carry: type 0:0:0:0:0:0:0,
 force 0, location and orientation 0, and the marking "Marking". *)
Lemma cdis_partial_update_unknown_pf : forall m g o l outs st,
  o_partial o = true -> decode_all m g o l = Some (outs, st) ->
  forall h1 c p h2 x d, combine l outs = h1 ++ (c, p) :: h2 -> cp_body c = CBEntityState x -> pdu_body p = BEntityState d ->
  partial_update (cp_body c) -> never_received_full (SuEntity (EntityState_entity_id d)) h1 ->
  EntityState_force_id d = 0 /\ EntityState_entity_type d = MkEntityType 0 0 0 0 0 0 0 /\ EntityState_location d = MkLocation 0 0 0 /\
  EntityState_orientation d = MkOrientation 0 0 0 /\ ea_word (EntityState_appearance d) = 0 /\ mk_string (EntityState_marking d) = [77; 97; 114; 107; 105; 110; 103].
Proof.
  intros m g o l outs st Hp Hr h1 c p h2 x d Hc Hx Hd Hpu Hn. destruct (run_split _ _ _ _ _ _ _ _ _ Hr Hc) as (s1 & s2 & H1 & H2).
  apply decode_step_some in H2. destruct H2 as [Hb _]. rewrite Hd, Hx in Hb. cbn [dec_body] in Hb. destruct (dec_es _ _ _ _) as [d' u] eqn:E. cbn in Hb. injection Hb as ->.
  assert (EntityState_entity_id d' = dec_eid (CEntityState_id x)) as Hid by (unfold dec_es in E; injection E as <- _; reflexivity). rewrite Hid in Hn.
  pose proof (dec_inv_run m g o _ _ _ H1 Hp (SuEntity (dec_eid (CEntityState_id x)))) as Hi. rewrite combine_map_id in Hi.
  destruct Hi as [[Hnone _]|(f' & y & Hl & _)]; [|destruct (rnever_not_last _ _ _ Hn Hl)]. cbn [dec_none] in Hnone. rewrite Hnone in E. rewrite Hx in Hpu. cbn [partial_update] in Hpu. unfold absent in Hpu.
  destruct Hpu as (Hf & Q1 & Q2 & Q3 & Q4 & Q5 & Q6). unfold dec_es in E. rewrite Hf, Hp, Q1, Q2, Q3, Q4, Q5, Q6 in E. cbn in E. injection E as <- _. cbn. repeat split.
Qed.
(*@C31
 The IFF system identification a partial update decodes to is that of the first IFF PDU received with the full update flag. *)
Lemma cdis_partial_update_iff_pf : forall m g o l outs st,
  o_partial o = true -> decode_all m g o l = Some (outs, st) ->
  forall h1 c p h2 x d, combine l outs = h1 ++ (c, p) :: h2 -> cp_body c = CBIff x -> pdu_body p = BIff d ->
  CIff_full x = false -> absent (CIff_system x) ->
  (forall f, first_received_full (SuIff (Iff_emitting_entity_id d)) h1 (BIff f) -> Iff_system_id d = Iff_system_id f) /\
  (never_received_full (SuIff (Iff_emitting_entity_id d)) h1 -> Iff_system_id d = MkSystemId 0 0 0 0).
Proof.
  intros m g o l outs st Hp Hr h1 c p h2 x d Hc Hx Hd Hf Ha. destruct (run_split _ _ _ _ _ _ _ _ _ Hr Hc) as (s1 & s2 & H1 & H2).
  apply decode_step_some in H2. destruct H2 as [Hb _]. rewrite Hd, Hx in Hb. cbn [dec_body] in Hb. destruct (dec_iff _ _ _) as [d' u] eqn:E. cbn in Hb. injection Hb as ->.
  assert (Iff_emitting_entity_id d' = dec_eid (CIff_emitting x)) as Hid by (unfold dec_iff in E; injection E as <- _; reflexivity). rewrite Hid.
  pose proof (dec_inv_run m g o _ _ _ H1 Hp (SuIff (dec_eid (CIff_emitting x)))) as Hi. rewrite combine_map_id in Hi. unfold absent in Ha. split.
  - intros f Hy. destruct Hi as [[_ Hn]|(f' & y & _ & Hy' & Hrep)]; [destruct (rnever_not_first _ _ _ Hn Hy)|]. pose proof (rfirst_unique _ _ _ _ Hy Hy') as <-.
    cbn [dec_rep] in Hrep. destruct f'; try (destruct Hrep; fail). destruct Hrep as (z & Hz & Hrep). injection Hz as <-. rewrite Hrep in E. unfold dec_iff in E. rewrite Hf, Hp, Ha in E.
    injection E as <- _. reflexivity.
  - intros Hn. destruct Hi as [[Hnone _]|(f' & y & Hl & _)]; [|destruct (rnever_not_last _ _ _ Hn Hl)]. cbn [dec_none] in Hnone. rewrite Hnone in E. unfold dec_iff in E. rewrite Hf, Hp, Ha in E.
    injection E as <- _. reflexivity.
Qed.

(** ** C31, end to end *)
Lemma dec_enc_eid i : dec_eid (enc_eid i) = i. Proof. destruct i as [[a b] c]. reflexivity. Qed.
Lemma dec_enc_etype t : dec_etype (enc_etype t) = t. Proof. destruct t; reflexivity. Qed.
Lemma enc_body_subject g o now st b c r st' : enc_body g o now st b = Some (c, r, st') -> csubject c = subject b.
Proof.
  destruct b; cbn [enc_body subject]; intros H; try (injection H as <- _ _; reflexivity).
  - unfold enc_es in H. destruct (partial_ok _ _ _ _); [injection H as <- _ _; cbn; now rewrite dec_enc_eid|]. destruct (enc_world _ _). destruct (cmarking_new _); [|discriminate].
    injection H as <- _ _. cbn. now rewrite dec_enc_eid.
  - unfold enc_ee in H. destruct (if partial_ok _ _ _ _ then _ else _); injection H as <- _ _; cbn; now rewrite dec_enc_eid.
  - unfold enc_designator in H. destruct (if vec_zero _ then _ else _). destruct (partial_ok _ _ _ _); [injection H as <- _ _; cbn; now rewrite dec_enc_eid|]. destruct (enc_world _ _).
    injection H as <- _ _. cbn. now rewrite dec_enc_eid.
  - unfold enc_transmitter in H. destruct (partial_ok _ _ _ _); [injection H as <- _ _; cbn; now rewrite dec_enc_eid|]. destruct (enc_world _ _). destruct (enc_ecv _).
    injection H as <- _ _. cbn. now rewrite dec_enc_eid.
  - unfold enc_iff in H. destruct (if vec_zero _ then _ else _). injection H as <- _ _. cbn. now rewrite dec_enc_eid.
Qed.
Lemma full_flagged b : (forall k, csubject b <> Some (SuIff k)) -> full_update b -> flagged_full b = true.
Proof. intros Hk. destruct b; cbn; try tauto. intros _. destruct (Hk _ eq_refl). Qed.
Lemma partial_unflagged b : (forall k, csubject b <> Some (SuIff k)) -> partial_update b -> flagged_full b = false.
Proof. intros Hk. destruct b; cbn; try tauto. intros _. destruct (Hk _ eq_refl). Qed.
Lemma the_system_map f q n e F : EE_systems f = map F (EE_systems q) -> (forall e, es_number (F e) = es_number e) -> the_system q n e -> the_system f n (F e).
Proof.
  intros Hm Hn (Hi & He & Hu). unfold the_system. rewrite Hm. split; [now apply in_map|]. split; [now rewrite Hn|]. intros e' Hi' He'. apply in_map_iff in Hi'.
  destruct Hi' as (a & <- & Ha). f_equal. apply Hu; [exact Ha|]. now rewrite Hn in He'.
Qed.
(** a full update, decoded in any state *)
Definition reconstructs (f q : PduBody) : Prop :=
  match f, q with
  | BElectromagneticEmission f, BElectromagneticEmission q =>
      exists F, EE_systems f = map F (EE_systems q) /\ forall e, es_number (F e) = es_number e /\ es_name (F e) = es_name e /\ es_function (F e) = es_function e
  | _, _ => same_statics f q
  end.
Lemma enc_full_dec g o now st b c r st' dst : enc_body g o now st b = Some (c, r, st') -> (forall k, subject b <> Some (SuIff k)) -> full_update c -> reconstructs (d_out (dec_body g o dst c)) b.
Proof.
  intros H Hk Hf. destruct b; cbn [enc_body] in H; try (injection H as <- _ _; destruct Hf; fail).
  - unfold enc_es in H. destruct (partial_ok _ _ _ _); [injection H as <- _ _; cbn in Hf; destruct Hf; discriminate|]. destruct (enc_world _ _). destruct (cmarking_new _); [|discriminate].
    injection H as <- _ _. cbn. rewrite dec_enc_etype. auto.
  - unfold enc_ee in H. destruct (if partial_ok _ _ _ _ then _ else _); injection H as <- _ _; [cbn in Hf; destruct Hf; discriminate|].
    cbn [dec_body]. unfold dec_ee. cbn [d_out fst reconstructs EE_systems CEmission_systems]. rewrite map_map. eexists. split; [reflexivity|].
    intros e. unfold dec_esys. destruct (unopt _ _) as [[n fn] l]. cbn. auto.
  - unfold enc_designator in H. destruct (if vec_zero _ then _ else _). destruct (partial_ok _ _ _ _); [injection H as <- _ _; cbn in Hf; destruct Hf; discriminate|]. destruct (enc_world _ _).
    injection H as <- _ _. cbn. auto.
  - unfold enc_transmitter in H. destruct (partial_ok _ _ _ _); [injection H as <- _ _; cbn in Hf; destruct Hf; discriminate|]. destruct (enc_world _ _). destruct (enc_ecv _).
    injection H as <- _ _. cbn. now rewrite dec_enc_etype.
  - destruct (Hk _ eq_refl).
Qed.
Lemma reconstructs_statics f q : reconstructs f q -> same_statics f q.
Proof.
  destruct f, q; cbn; try tauto. intros (F & Hm & HF) e e' Hi (Hi' & He' & Hu). rewrite Hm in Hi. apply in_map_iff in Hi. destruct Hi as (a & <- & Ha).
  destruct (HF a) as (H1 & H2 & H3). rewrite H1 in He', Hu. rewrite H2, H3. rewrite (Hu a Ha eq_refl). auto.
Qed.
Lemma Forall2_in_r {A B} (R : A -> B -> Prop) l l' b : Forall2 R l l' -> In b l' -> exists a, In a l /\ R a b.
Proof. induction 1; intros []; [subst; eexists; split; [left; reflexivity|eassumption]|]. destruct IHForall2 as (a & ? & ?); [assumption|]. exists a. split; [right|]; assumption. Qed.
Lemma dec_ee_numbers g o st x d : d_out (dec_body g o st (CBEmission x)) = BElectromagneticEmission d -> map es_number (EE_systems d) = map cesy_number (CEmission_systems x).
Proof.
  cbn [dec_body]. unfold dec_ee. cbn [d_out fst]. intros H. injection H as <-. cbn [EE_systems]. rewrite map_map. apply map_ext. intros a. unfold dec_esys. destruct (unopt _ _) as [[n fn] l]. reflexivity.
Qed.
Lemma inherits_statics g o st c f q : partial_update c -> inherits c (d_out (dec_body g o st c)) f -> reconstructs f q -> same_statics (d_out (dec_body g o st c)) q.
Proof.
  intros Hp Hi Hr. destruct c; cbn [partial_update] in Hp; try (destruct Hp; fail).
  all: match type of Hi with inherits ?k _ _ => destruct (d_out (dec_body g o st k)) eqn:E end; cbn [inherits] in Hi; try (destruct Hi; fail).
  all: destruct f; try (destruct Hi; fail).
  all: destruct q; try (destruct Hr; fail).
  - destruct Hi as (H1 & H2 & H3 & H4 & H5), Hp as (P0 & P1 & P2 & P3 & P4 & P5 & P6), Hr as (R1 & R2 & R3). cbn. rewrite H1, H2, H5 by assumption. auto.
  - destruct Hr as (F & Hm & HF). cbn [same_statics]. intros e e' Hin Hs. destruct Hp as [_ Hp]. apply dec_ee_numbers in E.
    assert (Forall2 (fun a b => es_number b = cesy_number a) (CEmission_systems x) (EE_systems x0)) as Hnum.
    { revert E. generalize (EE_systems x0) (CEmission_systems x). intros l1 l2. revert l1. induction l2; intros [|b l1] E; try discriminate; constructor; cbn in E; injection E; auto. }
    assert (exists a, In a (CEmission_systems x) /\ inherits_system x1 a e /\ es_number e = cesy_number a) as (a & Ha & [Hsys _] & Hna).
    { revert Hi Hnum Hin. generalize (EE_systems x0) (CEmission_systems x). clear. induction 1 as [|a b l l' Hab Hi IH]; intros Hn; inversion Hn; subst; intros []; [subst; exists a; split; [left; reflexivity|auto]|].
      destruct IH as (a' & ? & ?); try assumption. exists a'. split; [right|]; assumption. }
    rewrite Forall_forall in Hp. specialize (Hp a Ha). destruct Hp as (P1 & P2 & _). rewrite Hna in Hs.
    pose proof (the_system_map x1 x2 _ e' F Hm (fun e => proj1 (HF e)) Hs) as Hs'. specialize (Hsys _ Hs'). destruct Hsys as (S1 & S2 & _). rewrite S1, S2 by assumption. destruct (HF e') as (? & -> & ->). auto.
  - destruct Hi as (H1 & H2 & H3 & H4 & H5), Hp as (P0 & P1 & P2 & P3 & P4 & P5), Hr as (R1 & R2). cbn. rewrite H1, H2 by assumption. auto.
  - destruct Hi as (H1 & H2 & H3 & H4 & H5 & H6), Hp as (P0 & P1 & P2 & P3 & P4 & P5 & P6 & P7). cbn in Hr. cbn. rewrite H1 by assumption. auto.
Qed.
Lemma encode_step_some g o st now p c st' : encode_step g o st (now, p) = Some (c, st') -> exists r, enc_body g o now st (pdu_body p) = Some (cp_body c, r, st').
Proof. unfold encode_step, encode. cbn [fst snd]. destruct (enc_body _ _ _ _ _) as [[[b r] st2]|]; [|discriminate]. intros H. injection H as <- <-. exists r. reflexivity. Qed.
Lemma combine_snd {A B} (l : list A) (k : list B) : length l = length k -> map snd (combine l k) = k.
Proof. revert k. induction l; intros [|b k] H; cbn in *; try discriminate; [reflexivity|]. f_equal. auto. Qed.
Lemma combine_fst {A B} (l : list A) (k : list B) : length l = length k -> map fst (combine l k) = l.
Proof. revert k. induction l; intros [|b k] H; cbn in *; try discriminate; [reflexivity|]. f_equal. auto. Qed.
Lemma run_length {S I O : Type} (step : S -> I -> option (O * S)) l : forall st os st', run step st l = Some (os, st') -> length l = length os.
Proof.
  induction l as [|i l IH]; intros st os st' H; cbn [run] in H; [injection H as <- _; reflexivity|]. destruct (step st i) as [[c s2]|]; [|discriminate]. destruct (run step s2 l) as [[cs s3]|] eqn:E; [|discriminate].
  injection H as <- _. cbn. f_equal. eauto.
Qed.
Lemma split_map {A B} (f : A -> B) l : forall b1 b b2, map f l = b1 ++ b :: b2 -> exists a1 a a2, l = a1 ++ a :: a2 /\ map f a1 = b1 /\ f a = b /\ map f a2 = b2.
Proof.
  induction l as [|a l IH]; intros [|b' b1] b b2 H; cbn in H; try discriminate.
  - injection H as <- <-. exists [], a, l. auto.
  - injection H as <- H. destruct (IH _ _ _ H) as (a1 & a' & a2 & -> & <- & <- & <-). exists (a :: a1), a', a2. auto.
Qed.
(** every C-DIS PDU an encoder makes *)
Lemma encoded_all g o l cs st : encode_all g o l = Some (cs, st) ->
  Forall (fun e => csubject (cp_body (snd e)) = subject (pdu_body (snd (fst e))) /\ (full_update (cp_body (snd e)) \/ partial_update (cp_body (snd e)) \/ subject (pdu_body (snd (fst e))) = None)) (combine l cs).
Proof.
  intros H. revert l cs st H. apply (run_ind _ (fun _ h => Forall _ h)); [constructor|]. intros h st [now p] c st' Hh He. apply Forall_app. split; [exact Hh|]. constructor; [|constructor]. cbn [fst snd].
  apply encode_step_some in He. destruct He as [r He]. split; [eapply enc_body_subject; eassumption|]. destruct (subject (pdu_body p)) as [s|] eqn:Es; [|auto].
  destruct (enc_step _ _ _ _ _ _ _ _ _ He Es) as [Hf _]. destruct (sends_full _ _ _ _ _); auto.
Qed.
Lemma paired_last s h D t q c (G : Received) :
  (forall k, s <> SuIff k) -> map snd h = map fst D ->
  Forall (fun e : Z * Pdu * CPdu => csubject (cp_body (snd e)) = subject (pdu_body (snd (fst e))) /\ (full_update (cp_body (snd e)) \/ partial_update (cp_body (snd e)) \/ subject (pdu_body (snd (fst e))) = None)) h ->
  forall h1 h2, h = h1 ++ (t, q, c) :: h2 -> full_sent s (t, q, c) -> never_sent_full s h2 ->
  exists D1 d D2, D = D1 ++ (c, d) :: D2 /\ map fst D1 = map snd h1 /\ last_received_full s D (pdu_body d).
Proof.
  intros Hk Hm Hall h1 h2 -> Hf Hn. rewrite map_app in Hm. cbn [map snd] in Hm. symmetry in Hm. destruct (split_map _ _ _ _ _ Hm) as (D1 & [c' d] & D2 & -> & H1 & H2 & H3). cbn in H2. subst c'.
  exists D1, d, D2. split; [reflexivity|]. split; [exact H1|]. exists D1, c, d, D2. split; [reflexivity|].
  apply Forall_app in Hall. destruct Hall as [_ Hall]. inversion Hall as [|? ? [Hc _] Hall2]; subst. cbn [fst snd] in Hc. split; [|split; [|reflexivity]].
  - destruct Hf as [Hf1 Hf2]. cbn [fst snd] in Hf1, Hf2. split; cbn [fst]; [congruence|]. apply full_flagged; [intros k; rewrite Hc, Hf1; intros H; injection H; apply Hk|exact Hf2].
  - clear -Hk H3 Hn Hall2. revert D2 H3. induction h2 as [|e h2 IH]; intros [|e' D2] H3; try discriminate; [constructor|]. cbn in H3. injection H3 as He H3. inversion Hn as [|? ? Hn1 Hn2]; subst. inversion Hall2 as [|? ? Ha1 Ha2]; subst.
    constructor; [|apply IH; assumption]. intros [F1 F2]. rewrite He in F1, F2. apply Hn1. destruct Ha1 as [S1 S2]. split; [congruence|]. destruct S2 as [S2|[S2|S2]]; [exact S2| |congruence].
    exfalso. rewrite (partial_unflagged (cp_body (snd e))) in F2; [discriminate| |exact S2]. intros k. rewrite F1. intros H; injection H; apply Hk.
Qed.
(*@C31
 End to end. A sender's and a receiver's codec in partial update mode, over every history of DIS PDUs with clock readings: for every Entity State,
 Emission, Designator and Transmitter PDU, the PDU the receiver gets has the static fields (force, type, appearance; name and function by system number;
 code name and code; radio type) of the last PDU about the same entity (radio) that was sent in full: this one, if it was sent in full itself. *)
Lemma cdis_static_fields_end_to_end_pf : forall m g o l cs st ds st',
  o_partial o = true -> encode_all g o l = Some (cs, st) -> decode_all m g o cs = Some (ds, st') ->
  forall h1 now p c h2 s, combine l cs = h1 ++ (now, p, c) :: h2 -> subject (pdu_body p) = Some s -> (forall k, s <> SuIff k) ->
  exists d, nth_error ds (length h1) = Some d /\
    (full_update (cp_body c) -> same_statics (pdu_body d) (pdu_body p)) /\
    (partial_update (cp_body c) -> exists t q, last_sent_full s h1 t q /\ same_statics (pdu_body d) (pdu_body q)).
Proof.
  intros m g o l cs st ds st' Hp He Hd h1 now p c h2 s Hc Hs Hk.
  pose proof (run_length _ _ _ _ _ He) as L1. pose proof (run_length _ _ _ _ _ Hd) as L2. pose proof (encoded_all _ _ _ _ _ He) as Hall.
  assert (map snd (combine l cs) = map fst (combine cs ds)) as Hm by (rewrite combine_snd by exact L1; now rewrite combine_fst by exact L2).
  pose proof Hm as Hm'. rewrite Hc, map_app in Hm'. cbn [map snd] in Hm'. symmetry in Hm'. destruct (split_map _ _ _ _ _ Hm') as (D1 & [c' d] & D2 & HD & M1 & M2 & _). cbn in M2. subst c'.
  exists d. split.
  { assert (length h1 = length D1) as -> by (rewrite <- (map_length snd h1), <- M1; apply map_length).
    assert (map snd (combine cs ds) = ds) as <- by (now apply combine_snd). rewrite HD. rewrite nth_error_map, nth_error_app2 by lia. rewrite Nat.sub_diag. reflexivity. }
  destruct (run_split _ _ _ _ _ _ _ _ _ He Hc) as (s1 & s2 & R1 & R2). destruct (run_split _ _ _ _ _ _ _ _ _ Hd HD) as (s3 & s4 & R3 & R4).
  apply encode_step_some in R2. destruct R2 as [r R2]. pose proof R4 as R4'. apply decode_step_some in R4. destruct R4 as [Hb _].
  assert (csubject (cp_body c) = Some s) as Hcs by (rewrite (enc_body_subject _ _ _ _ _ _ _ _ R2); exact Hs).
  assert (forall k, csubject (cp_body c) <> Some (SuIff k)) as Hck by (intros k; rewrite Hcs; intros H; injection H; apply Hk).
  assert (forall k, subject (pdu_body p) <> Some (SuIff k)) as Hsk by (intros k; rewrite Hs; intros H; injection H; apply Hk).
  split.
  - intros Hf. rewrite Hb. apply reconstructs_statics. eapply enc_full_dec; eassumption.
  - intros Hpa. pose proof (enc_inv_run g o _ _ _ R1 Hp s) as Hi. rewrite combine_map_id in Hi. destruct (hb s1 s) as [t|] eqn:Eh.
    + destruct Hi as [q Hq]. exists t, q. split; [exact Hq|]. destruct Hq as (a1 & cq & a2 & Ha & Hfs & Hns).
      rewrite Hc in Hall. apply Forall_app in Hall. destruct Hall as [Hall _].
      destruct (paired_last s h1 D1 t q cq [] Hk (eq_sym M1) Hall a1 a2 Ha Hfs Hns) as (E1 & dq & E2 & HE & ME & Hlast).
      assert (inherits (cp_body c) (pdu_body d) (pdu_body dq)) as Hinh.
      { exact (cdis_partial_update_inherits_pf m g o cs ds st' Hp Hd D1 c d D2 s (pdu_body dq) HD Hcs Hk (partial_unflagged _ Hck Hpa) Hlast). }
      assert (reconstructs (pdu_body dq) (pdu_body q)) as Hrec.
      { rewrite Ha in Hc. rewrite <- app_assoc in Hc. destruct (run_split _ _ _ _ _ _ _ _ _ He Hc) as (u1 & u2 & U1 & U2). apply encode_step_some in U2. destruct U2 as [r' U2].
        rewrite HE in HD. rewrite <- app_assoc in HD. destruct (run_split _ _ _ _ _ _ _ _ _ Hd HD) as (u3 & u4 & U3 & U4). apply decode_step_some in U4. destruct U4 as [-> _].
        destruct Hfs as [F1 F2]. cbn [fst snd] in F1, F2. eapply enc_full_dec; [exact U2| |exact F2]. intros k. rewrite F1. intros H; injection H; apply Hk. }
      rewrite Hb in Hinh |- *. eapply inherits_statics; eassumption.
    + exfalso. destruct (enc_step _ _ _ _ _ _ _ _ _ R2 Hs) as [Hf _]. unfold sends_full, partial_ok in Hf. rewrite Eh, andb_false_r in Hf. exact (partial_not_full _ Hpa Hf).
Qed.

(** ** C32 *)
Definition esame (s : Subject) (a b : EncState) : Prop :=
  match s with
  | SuEntity k => en_es a k = en_es b k
  | SuEmission k => en_ee a k = en_ee b k
  | SuDesignator k => en_des a k = en_des b k
  | SuRadio k n => en_tx a (k, n) = en_tx b (k, n)
  | SuIff k => en_iff a k = en_iff b k
  end.
Lemma esame_refl s a : esame s a a. Proof. destruct s; reflexivity. Qed.
Lemma enc_other g o now st b s c r st' : enc_body g o now st b = Some (c, r, st') -> subject b <> Some s -> esame s st st'.
Proof.
  intros He Hs. destruct b; cbn [enc_body subject] in *; try (injection He as _ _ <-; apply esame_refl).
  1: destruct (enc_es _ _ _ _ _) as [[d []]|]; [| |discriminate].
  3: destruct (enc_ee _ _ _ _) as [d []]. 5: destruct (enc_designator _ _ _ _ _) as [d []]. 7: destruct (enc_transmitter _ _ _ _ _) as [d []]. 9: destruct (enc_iff _ _ _ _) as [d []].
  all: injection He as _ _ <-; try apply esame_refl.
  all: destruct s as [k|k|k|k n|k]; cbn [esame en_es en_ee en_des en_tx en_iff]; try reflexivity; symmetry; apply put_diff.
  all: try (apply eid_eqb_false; congruence).
  apply radio_eqb_false; congruence.
Qed.
Lemma enc_same g o now st1 st2 b s c r st1' : subject b = Some s -> esame s st1 st2 -> enc_body g o now st1 b = Some (c, r, st1') ->
  exists st2', enc_body g o now st2 b = Some (c, r, st2') /\ esame s st1' st2'.
Proof.
  intros Hs Hm He. destruct b; cbn [subject] in Hs; try discriminate; injection Hs as <-; cbn [esame] in Hm; cbn [enc_body] in *; rewrite <- Hm.
  1: destruct (enc_es _ _ _ _ _) as [[d []]|]; [| |discriminate].
  3: destruct (enc_ee _ _ _ _) as [d []]. 5: destruct (enc_designator _ _ _ _ _) as [d []]. 7: destruct (enc_transmitter _ _ _ _ _) as [d []]. 9: destruct (enc_iff _ _ _ _) as [d []].
  all: injection He as <- <- <-; eexists; split; [reflexivity|]; cbn [esame en_es en_ee en_des en_tx en_iff]; try exact Hm.
  all: rewrite !put_same by (first [apply eid_eqb_refl|apply radio_eqb_refl]); reflexivity.
Qed.
Lemma about_eq s i : about s i = true <-> subject (pdu_body (snd i)) = Some s.
Proof. unfold about. destruct (subject _); [|split; discriminate]. rewrite subj_eqb_eq. split; congruence. Qed.
Lemma cabout_eq s c : cabout s c = true <-> csubject (cp_body c) = Some s.
Proof. unfold cabout. destruct (csubject _); [|split; discriminate]. rewrite subj_eqb_eq. split; congruence. Qed.
(*@C32
 The encoder keeps its subjects apart: what it makes of the PDUs about one entity (one radio) in any history is what it makes of them when
 all other PDUs are left out of the history. *)
Lemma cdis_encoder_independence_pf : forall g o l outs st s,
  encode_all g o l = Some (outs, st) ->
  exists st', encode_all g o (filter (about s) l) = Some (map snd (filter (fun e => about s (fst e)) (combine l outs)), st').
Proof.
  intros g o l outs st s H. unfold encode_all in *. assert (esame s enc_state_new enc_state_new) as Hm by apply esame_refl. revert H Hm. generalize enc_state_new at 1 2. generalize enc_state_new. revert outs st.
  induction l as [|[now p] l IH]; intros outs st st2 st1 H Hm; cbn [run] in H.
  - injection H as <- <-. cbn. eauto.
  - destruct (encode_step g o st1 (now, p)) as [[c st1']|] eqn:E; [|discriminate]. destruct (run _ st1' l) as [[cs st3]|] eqn:Er; [|discriminate]. injection H as <- <-.
    cbn [filter combine map fst snd]. destruct (encode_step_some _ _ _ _ _ _ _ E) as [r He]. destruct (about s (now, p)) eqn:Ea.
    + apply about_eq in Ea. cbn [snd] in Ea. destruct (enc_same _ _ _ _ _ _ _ _ _ _ Ea Hm He) as (st2' & He2 & Hm2). destruct (IH _ _ _ _ Er Hm2) as [st' Hi].
      cbn [run map]. unfold encode_step at 1, encode. cbn [fst snd]. rewrite He2. rewrite Hi. exists st'. f_equal. f_equal. cbn [snd]. f_equal.
      unfold encode_step, encode in E. cbn [fst snd] in E. rewrite He in E. injection E as E. exact E.
    + apply (IH _ _ _ _ Er). assert (subject (pdu_body p) <> Some s) as Hne by (intros H; apply (about_eq s (now, p)) in H; congruence).
      pose proof (enc_other _ _ _ _ _ _ _ _ _ He Hne) as Ho. destruct s; cbn in *; congruence.
Qed.
(*@C32
 So does the decoder. *)
Lemma cdis_decoder_independence_pf : forall m g o l outs st s,
  decode_all m g o l = Some (outs, st) ->
  exists st', decode_all m g o (filter (cabout s) l) = Some (map snd (filter (fun e => cabout s (fst e)) (combine l outs)), st').
Proof.
  intros m g o l outs st s H. unfold decode_all in *. assert (dsame s dec_state_new dec_state_new) as Hm by apply dsame_refl. revert H Hm. generalize dec_state_new at 1 2. generalize dec_state_new. revert outs st.
  induction l as [|c l IH]; intros outs st st2 st1 H Hm; cbn [run] in H.
  - injection H as <- <-. cbn. eauto.
  - destruct (decode_step m g o st1 c) as [[p st1']|] eqn:E; [|discriminate]. destruct (run _ st1' l) as [[cs st3]|] eqn:Er; [|discriminate]. injection H as <- <-.
    cbn [filter combine map fst snd]. destruct (decode_step_some _ _ _ _ _ _ _ E) as [_ ->]. destruct (cabout s c) eqn:Ea.
    + apply cabout_eq in Ea. destruct (dec_same g o _ _ _ _ Ea Hm) as (Hf & Hm2). destruct (IH _ _ _ _ Er Hm2) as [st' Hi].
      cbn [run map]. rewrite (decode_step_fst _ _ _ _ _ _ _ _ Hf E). rewrite Hi. exists st'. reflexivity.
    + apply (IH _ _ _ _ Er). assert (csubject (cp_body c) <> Some s) as Hne by (intros H; apply cabout_eq in H; congruence).
      pose proof (dec_other g o st1 _ _ Hne) as Ho. destruct s; cbn in *; congruence.
Qed.
(*@C32
 PDUs of the types without codec state translate the same in every state and leave it alone. *)
Lemma cdis_stateless_types_pf : forall m g o now est1 est2 dst1 dst2 p c,
  (subject (pdu_body p) = None -> exists q, encode_step g o est1 (now, p) = Some (q, est1) /\ encode_step g o est2 (now, p) = Some (q, est2)) /\
  (csubject (cp_body c) = None -> forall q, decode_step m g o dst1 c = Some (q, dst1) <-> decode_step m g o dst2 c = Some (q, dst2)).
Proof.
  intros m g o now est1 est2 dst1 dst2 p c. split.
  - intros H. unfold encode_step, encode. cbn [fst snd]. destruct (pdu_body p); cbn [subject] in H; try discriminate; cbn [enc_body]; eexists; split; reflexivity.
  - assert (forall a b q, csubject (cp_body c) = None -> decode_step m g o a c = Some (q, a) -> decode_step m g o b c = Some (q, b)) as X; [|intros H q; split; now apply X].
    intros a b q H E. apply (decode_step_fst _ _ _ _ b) in E; [|now apply dec_plain]. rewrite E. f_equal. f_equal. destruct (cp_body c); cbn [csubject] in H; try discriminate; reflexivity.
Qed.

(** ** Examples and refutations *)
Definition ex_history : list (Z * Pdu) :=
  [(0, ex_dis (BEntityState (ex_dis_es 3 1 [86; 49]))); (second, ex_dis (BEntityState (ex_dis_es 4 2 [86; 50]))); (13 * second, ex_dis (BEntityState (ex_dis_es 3 2 [86; 51])));
   (14 * second, ex_dis (BEntityState (ex_dis_es 3 7 [86; 52])))].
(*@ex*)
Example cdis_partial_update_example : forall g, exists cs st ds st',
  encode_all g new_partial_update ex_history = Some (cs, st) /\ decode_all Checked g new_partial_update cs = Some (ds, st') /\
  map (fun c => flagged_full (cp_body c)) cs = [true; true; true; false] /\
  map (fun d => match pdu_body d with BEntityState x => EntityState_force_id x | _ => -1 end) ds = [1; 2; 2; 2] /\
  length (filter (about (SuEntity (MkEntityId (MkSimulationAddress 1 2) 3))) ex_history) = 3%nat.
Proof. intros g. do 4 eexists. split; [vm_compute; reflexivity|]. split; [vm_compute; reflexivity|]. repeat split. Qed.
Definition markings (l : list Pdu) : list (list Z) := map (fun d => match pdu_body d with BEntityState x => mk_string (EntityState_marking x) | _ => [] end) l.
(*@C31
 The full claim fails for the marking. Entity 3 is sent in full with marking V1, in full with marking V3, then as a partial update: the receiver makes the
 last one V1 again. *)
Lemma cdis_partial_update_marking_refuted_pf : forall g, exists cs st ds st',
  encode_all g new_partial_update ex_history = Some (cs, st) /\ decode_all Checked g new_partial_update cs = Some (ds, st') /\
  map (fun i => subject (pdu_body (snd i))) ex_history = map (fun n => Some (SuEntity (MkEntityId (MkSimulationAddress 1 2) n))) [3; 4; 3; 3] /\
  map (fun c => flagged_full (cp_body c)) cs = [true; true; true; false] /\
  markings (map snd ex_history) = [[86; 49]; [86; 50]; [86; 51]; [86; 52]] /\ markings ds = [[86; 49]; [86; 50]; [86; 51]; [86; 49]].
Proof. intros g. do 4 eexists. split; [vm_compute; reflexivity|]. split; [vm_compute; reflexivity|]. repeat lazymatch goal with |- _ /\ _ => split end; reflexivity. Qed.
Definition ex_dis_iff (sys : SystemId) : Iff := MkIff (MkEntityId (MkSimulationAddress 1 2) 3) zero_event zero_vec sys 0 0 (MkFundOpData 1 2 0 0 4 5 6 7 8 9) None None None None.
Definition iff_systems (l : list Pdu) : list SystemId := map (fun d => match pdu_body d with BIff x => Iff_system_id x | _ => zero_system end) l.
(*@C31
 It fails for IFF: the sender never sets the full update flag, so that a receiver in partial update mode keeps nothing and makes the system
 identification of every partial update 0. *)
Lemma cdis_partial_update_iff_refuted_pf : forall g, exists l cs st ds st', let sys := MkSystemId 1 2 3 4 in
  encode_all g new_partial_update l = Some (cs, st) /\ decode_all Checked g new_partial_update cs = Some (ds, st') /\
  iff_systems (map snd l) = [sys; sys] /\ iff_systems ds = [sys; MkSystemId 0 0 0 0].
Proof.
  intros g. exists [(0, ex_dis (BIff (ex_dis_iff (MkSystemId 1 2 3 4)))); (second, ex_dis (BIff (ex_dis_iff (MkSystemId 1 2 3 4))))]. do 4 eexists. cbv zeta.
  split; [vm_compute; reflexivity|]. split; [vm_compute; reflexivity|]. split; reflexivity.
Qed.
Definition ex_dis_tx : Transmitter :=
  MkTransmitter (MkEntityId (MkSimulationAddress 1 2) 3) 1 (MkEntityType 7 1 225 1 2 3 4) 2 1 zero_loc (MkVectorF32 1065353216 1073741824 0) 0 1000 0 0 zero_modulation 0 (MkCryptoKeyId 0 false) None None [].
(*@C31
 It fails for the relative antenna location of a radio: (1, 2, 0) metres in the full update, (0, 0, 0) in every partial update that follows. *)
Lemma cdis_partial_update_relative_location_refuted_pf : forall g, exists cs st ds st',
  encode_all g new_partial_update [(0, ex_dis (BTransmitter ex_dis_tx)); (second, ex_dis (BTransmitter ex_dis_tx))] = Some (cs, st) /\
  decode_all Checked g new_partial_update cs = Some (ds, st') /\
  map (fun d => match pdu_body d with BTransmitter x => Some (Transmitter_relative_antenna_location x) | _ => None end) ds =
    [Some (MkVectorF32 1065353216 1073741824 0); Some (MkVectorF32 0 0 0)].
Proof. intros g. do 4 eexists. split; [vm_compute; reflexivity|]. split; [vm_compute; reflexivity|]. vm_compute. reflexivity. Qed.
(*@C30
 The full update flag of an IFF PDU is never set, not even on a full update: in every history, in every mode. *)
Lemma iff_full_update_flag_refuted_pf : forall g o l outs st, encode_all g o l = Some (outs, st) ->
  Forall (fun c => forall x, cp_body c = CBIff x -> CIff_full x = false) outs.
Proof.
  intros g o l outs st H. pose proof (run_length _ _ _ _ _ H) as L.
  assert (Forall (fun e : Z * Pdu * CPdu => forall x, cp_body (snd e) = CBIff x -> CIff_full x = false) (combine l outs)) as X.
  { clear L. revert l outs st H. apply (run_ind _ (fun _ h => Forall _ h)); [constructor|]. intros h st [now p] c st' Hh He. apply Forall_app. split; [exact Hh|]. constructor; [|constructor].
    cbn [snd]. intros x Hx. apply encode_step_some in He. destruct He as [r He]. rewrite Hx in He. clear -He. destruct (pdu_body p); cbn [enc_body] in He; try discriminate.
    - destruct (enc_es _ _ _ _ _) as [[? ?]|]; discriminate.
    - destruct (enc_ee _ _ _ _); discriminate.
    - destruct (enc_designator _ _ _ _ _); discriminate.
    - destruct (enc_transmitter _ _ _ _ _); discriminate.
    - destruct (enc_iff _ _ _ _) as [y u] eqn:E. injection He as <- _ _. unfold enc_iff in E. destruct (if vec_zero _ then _ else _). injection E as <- _. reflexivity. }
  rewrite <- (combine_snd l outs L). rewrite Forall_map. exact X.
Qed.

(** * C30-C33: the C-DIS codec over histories *)
From Coq Require Import ZArith List Lia Bool SpecFloat.
From Verif Require Import Base CdisBase DisCommon DisHeader DisLists DisSimman DisLogistics DisWarfare DisEntity DisEmission DisRadio DisIff DisText DisPdu DisPacket
  CdisRecords CdisBodies1 CdisBodies2 CdisIff CdisPdu CdisCodec1 CdisCodec2 CdisCodec3 SpecCodec.
Import ListNotations. Open Scope Z_scope.

(** ** Histories *)
Lemma run_ind {S I O : Type} (step : S -> I -> option (O * S)) (P : S -> list (I * O) -> Prop) st0 :
  P st0 [] -> (forall h st i c st', P st h -> step st i = Some (c, st') -> P st' (h ++ [(i, c)])) ->
  forall l os st, run step st0 l = Some (os, st) -> P st (combine l os).
Proof.
  intros H0 Hs. enough (forall l acc st1 os st, P st1 acc -> run step st1 l = Some (os, st) -> P st (acc ++ combine l os)) as X
    by (intros l os st Hr; apply (X l [] st0 os st H0 Hr)).
  induction l as [|i l IH]; intros acc st1 os st Ha Hr; cbn [run] in Hr.
  - injection Hr as <- <-. cbn [combine]. rewrite app_nil_r. exact Ha.
  - destruct (step st1 i) as [[c st2]|] eqn:E; [|discriminate]. destruct (run step st2 l) as [[cs st3]|] eqn:E2; [|discriminate]. injection Hr as <- <-.
    cbn [combine]. change ((i, c) :: combine l cs) with ([(i, c)] ++ combine l cs). rewrite app_assoc. eapply IH; [|exact E2]. eapply Hs; eauto.
Qed.
Lemma run_split {S I O : Type} (step : S -> I -> option (O * S)) : forall h1 l os st0 st i c h2,
  run step st0 l = Some (os, st) -> combine l os = h1 ++ (i, c) :: h2 ->
  exists st1 st2, run step st0 (map fst h1) = Some (map snd h1, st1) /\ step st1 i = Some (c, st2).
Proof.
  induction h1 as [|[i1 c1] h1 IH]; intros l os st0 st i c h2 Hr Hc; destruct l as [|j l]; cbn [run] in Hr.
  1, 3: injection Hr as <- <-; discriminate.
  - destruct (step st0 j) as [[c0 st2]|] eqn:E; [|discriminate]. destruct (run step st2 l) as [[cs st3]|] eqn:E2; [|discriminate]. injection Hr as <- <-.
    cbn [combine app] in Hc. injection Hc as -> -> _. exists st0, st2. split; [reflexivity|exact E].
  - destruct (step st0 j) as [[c0 st2]|] eqn:E; [|discriminate]. destruct (run step st2 l) as [[cs st3]|] eqn:E2; [|discriminate]. injection Hr as <- <-.
    cbn [combine app] in Hc. injection Hc as -> -> Hc. destruct (IH _ _ _ _ _ _ _ E2 Hc) as (s1 & s2 & H1 & H2). exists s1, s2. cbn [map fst snd run]. rewrite E, H1. auto.
Qed.
Lemma combine_map_id {A B} (h : list (A * B)) : combine (map fst h) (map snd h) = h.
Proof. induction h as [|[a b] h IH]; [reflexivity|]. cbn. now rewrite IH. Qed.

(** ** Subjects *)
Lemma eid_eqb_refl a : eid_eqb a a = true. Proof. now apply eid_eqb_eq. Qed.
Lemma subj_eqb_refl a : subj_eqb a a = true. Proof. now apply subj_eqb_eq. Qed.

(** ** The encoder *)
Definition hb (st : EncState) (s : Subject) : option Z :=
  match s with
  | SuEntity k => en_es st k
  | SuEmission k => option_map ee_heartbeat (en_ee st k)
  | SuDesignator k => en_des st k
  | SuRadio k n => en_tx st (k, n)
  | SuIff k => en_iff st k
  end.
Lemma es_heartbeat_spec o x : es_heartbeat o (EntityState_entity_type x) = heartbeat_parameter (o_hbt o) (BEntityState x).
Proof.
  unfold es_heartbeat, heartbeat_parameter. destruct (EntityState_entity_type x) as [k d ? ? ? ? ?]. cbn [et_kind et_domain]. cbv zeta.
  destruct k as [|p|p]; try reflexivity. do 4 (try (destruct p; try reflexivity)). destruct d as [|q|q]; try reflexivity. do 3 (try (destruct q; try reflexivity)).
Qed.
Definition sends_full (o : Options) (now : Z) (st : EncState) (b : PduBody) (s : Subject) : bool :=
  negb (partial_ok o (heartbeat_parameter (o_hbt o) b) now (hb st s)).
Lemma Forall_map_all {A B} (f : A -> B) (P : B -> Prop) l : (forall a, P (f a)) -> Forall P (map f l).
Proof. intros H. induction l; cbn; constructor; auto. Qed.
Lemma enc_esys_full ps bs sites e : system_full (enc_esys true ps bs sites e).
Proof.
  unfold system_full, enc_esys. cbn [cesy_name cesy_function cesy_location cesy_beams]. repeat split; try (unfold present; discriminate).
  apply Forall_map_all. intros b. unfold beam_full, enc_eb. cbn [ceb_fp_index ceb_bd_index ceb_kind ceb_category ceb_subcategory ceb_specific ceb_tracks].
  repeat split; try (unfold present; discriminate). destruct (15 <? _); [constructor|]. apply Forall_map_all. intros t. split; unfold present, enc_tj; cbn; discriminate.
Qed.
Lemma enc_esys_partial ps bs sites e : system_partial (enc_esys false ps bs sites e).
Proof.
  unfold system_partial, enc_esys. cbn [cesy_name cesy_function cesy_location cesy_beams]. repeat split; try reflexivity.
  apply Forall_map_all. intros b. unfold beam_partial, enc_eb. cbn [ceb_kind ceb_category ceb_subcategory ceb_specific ceb_tracks].
  repeat split; try reflexivity. destruct (15 <? _); [constructor|]. apply Forall_map_all. intros t. split; reflexivity.
Qed.

Ltac all_present := repeat lazymatch goal with |- _ /\ _ => split end; first [reflexivity|unfold present; discriminate|idtac].
Ltac put_other := unfold put_at, radio_eqb; cbn [hb en_es en_ee en_des en_tx en_iff fst snd];
  try match goal with |- context [if ?b then _ else _] => destruct b end; reflexivity.

Lemma enc_step g o now st b c r st' s : enc_body g o now st b = Some (c, r, st') -> subject b = Some s ->
  (if sends_full o now st b s then full_update c else partial_update c) /\
  (o_partial o = true -> forall s', hb st' s' = if sends_full o now st b s && subj_eqb s s' then Some now else hb st s').
Proof.
  destruct b; cbn [subject]; intros He Hs; try discriminate; injection Hs as <-; unfold sends_full; cbn [hb]; cbn [enc_body] in He.
  - unfold enc_es in He. rewrite es_heartbeat_spec in He. destruct (partial_ok _ _ _ _) eqn:E; cbn [negb andb].
    + injection He as <- _ <-. split; [cbn [full_update partial_update]; all_present|intros _ s'; reflexivity].
    + destruct (enc_world g _) as [loc u]. destruct (cmarking_new _); [|discriminate]. injection He as <- _ <-. split; [cbn [full_update]; all_present|].
      intros Hp s'. rewrite Hp. destruct s'; cbn [subj_eqb]; put_other.
  - unfold enc_ee in He. destruct (partial_ok _ _ _ _) eqn:E; cbn [negb andb].
    + destruct (en_ee st _) as [s0|] eqn:E2; [|unfold partial_ok in E; cbn in E; rewrite andb_false_r in E; discriminate].
      injection He as <- _ <-. split; [cbn [partial_update]; split; [reflexivity|apply Forall_map_all; intros; apply enc_esys_partial]|intros _ s'; reflexivity].
    + injection He as <- _ <-. split; [cbn [full_update]; split; [reflexivity|apply Forall_map_all; intros; apply enc_esys_full]|].
      intros Hp s'. rewrite Hp. destruct s'; cbn [subj_eqb]; put_other.
  - unfold enc_designator in He. destruct (if vec_zero _ then _ else _) as [spot eu]. destruct (partial_ok _ _ _ _) eqn:E; cbn [negb andb].
    + injection He as <- _ <-. split; [cbn [partial_update]; all_present|intros _ s'; reflexivity].
    + destruct (enc_world g _) as [loc u]. injection He as <- _ <-. split; [cbn [full_update]; all_present|].
      intros Hp s'. destruct s'; cbn [subj_eqb]; put_other.
  - unfold enc_transmitter in He. destruct (partial_ok _ _ _ _) eqn:E; cbn [negb andb].
    + injection He as <- _ <-. split; [cbn [partial_update]; all_present|intros _ s'; reflexivity].
    + destruct (enc_world g _) as [loc u]. destruct (enc_ecv _) as [rel eu]. injection He as <- _ <-. split; [cbn [full_update]; all_present|].
      intros Hp s'. destruct s'; cbn [subj_eqb]; put_other.
  - unfold enc_iff in He. destruct (if vec_zero _ then _ else _) as [ant u]. destruct (partial_ok _ _ _ _) eqn:E; cbn [negb andb] in *.
    + injection He as <- _ <-. split; [cbn [partial_update]; all_present|intros _ s'; reflexivity].
    + injection He as <- _ <-. split; [cbn [full_update]; all_present|]. intros Hp s'. destruct s'; cbn [subj_eqb]; put_other.
Qed.
Lemma enc_step_none g o now st b c r st' : enc_body g o now st b = Some (c, r, st') -> subject b = None -> st' = st.
Proof. destruct b; cbn [subject enc_body]; intros He Hs; try discriminate; injection He as _ _ <-; reflexivity. Qed.
Lemma partial_not_full c : partial_update c -> ~ full_update c.
Proof. destruct c; cbn; unfold absent, present; try tauto; intros [H _] [H' _]; congruence. Qed.
Lemma never_snoc s h e : never_sent_full s h -> ~ full_sent s e -> never_sent_full s (h ++ [e]).
Proof. intros H He. apply Forall_app. split; [exact H|]. constructor; [exact He|constructor]. Qed.
Lemma last_snoc_other s h e t p : last_sent_full s h t p -> ~ full_sent s e -> last_sent_full s (h ++ [e]) t p.
Proof. intros (h1 & c & h2 & -> & Hf & Hn) He. exists h1, c, (h2 ++ [e]). rewrite <- app_assoc. split; [reflexivity|]. split; [exact Hf|]. now apply never_snoc. Qed.
Lemma last_snoc_same s h t p c : full_sent s (t, p, c) -> last_sent_full s (h ++ [(t, p, c)]) t p.
Proof. intros H. exists h, c, []. split; [reflexivity|]. split; [exact H|constructor]. Qed.
Definition enc_inv (o : Options) (st : EncState) (h : Sent) : Prop :=
  o_partial o = true -> forall s, match hb st s with None => never_sent_full s h | Some t => exists p, last_sent_full s h t p end.
Lemma enc_step_inv g o h st i c st' : enc_inv o st h -> encode_step g o st i = Some (c, st') -> enc_inv o st' (h ++ [(i, c)]).
Proof.
  destruct i as [now p]. unfold encode_step, encode. cbn [fst snd]. intros Hi He Hp s. specialize (Hi Hp s).
  destruct (enc_body g o now st (pdu_body p)) as [[[b r] st2]|] eqn:E; [|discriminate]. injection He as <- <-.
  destruct (subject (pdu_body p)) as [s0|] eqn:Es.
  - destruct (enc_step _ _ _ _ _ _ _ _ _ E Es) as [Hf Hh]. rewrite (Hh Hp). destruct (sends_full o now st (pdu_body p) s0) eqn:Ef; cbn [andb].
    + destruct (subj_eqb s0 s) eqn:Eq.
      * apply subj_eqb_eq in Eq. subst s0. exists p. apply last_snoc_same. split; [exact Es|exact Hf].
      * assert (~ full_sent s (now, p, cfinalize (enc_header (pdu_header p)) b None)) as Hno
          by (intros [H _]; cbn [fst snd] in H; rewrite Es in H; injection H as ->; rewrite subj_eqb_refl in Eq; discriminate).
        destruct (hb st s) as [t|]; [destruct Hi as [q Hq]; exists q; now apply last_snoc_other|now apply never_snoc].
    + assert (~ full_sent s (now, p, cfinalize (enc_header (pdu_header p)) b None)) as Hno by (intros [_ H]; cbn in H; exact (partial_not_full _ Hf H)).
      destruct (hb st s) as [t|]; [destruct Hi as [q Hq]; exists q; now apply last_snoc_other|now apply never_snoc].
  - apply enc_step_none in E; [|exact Es]. subst st2.
    assert (~ full_sent s (now, p, cfinalize (enc_header (pdu_header p)) b None)) as Hno by (intros [H _]; cbn [fst snd] in H; rewrite Es in H; discriminate).
    destruct (hb st s) as [t|]; [destruct Hi as [q Hq]; exists q; now apply last_snoc_other|now apply never_snoc].
Qed.
Lemma enc_inv_run g o l os st : encode_all g o l = Some (os, st) -> enc_inv o st (combine l os).
Proof.
  intros H. revert l os st H. apply run_ind.
  - intros _ s. destruct s; constructor.
  - intros h st i c st'. apply enc_step_inv.
Qed.
Lemma last_full_unique s h t p t' p' : last_sent_full s h t p -> last_sent_full s h t' p' -> t = t' /\ p = p'.
Proof.
  intros (h1 & c & h2 & -> & Hf & Hn) (h1' & c' & h2' & He & Hf' & Hn'). revert h1' He.
  induction h1 as [|a h1 IH]; intros [|b h1'] He; cbn [app] in He.
  - injection He as -> -> _. auto.
  - injection He as _ ->. exfalso. unfold never_sent_full in Hn. rewrite Forall_app in Hn. destruct Hn as [_ Hn]. inversion Hn. auto.
  - injection He as _ <-. exfalso. unfold never_sent_full in Hn'. rewrite Forall_app in Hn'. destruct Hn' as [_ Hn']. inversion Hn'. auto.
  - injection He as _ He. eauto.
Qed.
Lemma never_not_last s h t p : never_sent_full s h -> ~ last_sent_full s h t p.
Proof. intros Hn (h1 & c & h2 & -> & Hf & _). unfold never_sent_full in Hn. rewrite Forall_app in Hn. destruct Hn as [_ Hn]. inversion Hn. auto. Qed.

(*@C30
 The full-update discipline, over every history of PDUs with clock readings (any, not only rising), for the five PDU types with codec state: each C-DIS
 PDU produced is either a full update, carrying every static field, or a partial update, carrying none; and it is a full update exactly when the codec
 is in full update mode, or no full update of this entity (of this radio) was sent before, or the last one has timed out: in f32 arithmetic, the
 seconds elapsed since it was sent exceed the heartbeat parameter that governs this PDU times the multiplier (what that means in real numbers is
 cdis_full_update_timing). *)
Lemma cdis_full_update_discipline_pf : forall g o l outs st,
  encode_all g o l = Some (outs, st) ->
  forall h1 now p c h2 s, combine l outs = h1 ++ (now, p, c) :: h2 -> subject (pdu_body p) = Some s ->
  (full_update (cp_body c) \/ partial_update (cp_body c)) /\ ~ (full_update (cp_body c) /\ partial_update (cp_body c)) /\
  (full_update (cp_body c) <->
   o_partial o = false \/ never_sent_full s h1 \/
   exists t q, last_sent_full s h1 t q /\ timed_out o (heartbeat_parameter (o_hbt o) (pdu_body p)) now t = true).
Proof.
  intros g o l outs st Hr h1 now p c h2 s Hc Hs. destruct (run_split _ _ _ _ _ _ _ _ _ Hr Hc) as (s1 & s2 & H1 & H2).
  pose proof (enc_inv_run g o _ _ _ H1) as Hi. rewrite combine_map_id in Hi.
  unfold encode_step, encode in H2. cbn [fst snd] in H2. destruct (enc_body g o now s1 (pdu_body p)) as [[[b r] st2]|] eqn:E; [|discriminate].
  injection H2 as <- <-. destruct (enc_step _ _ _ _ _ _ _ _ _ E Hs) as [Hf _]. cbn [cfinalize cp_body].
  split; [destruct (sends_full _ _ _ _ _); auto|]. split; [intros [H' H'']; exact (partial_not_full _ H'' H')|].
  assert (full_update b <-> sends_full o now s1 (pdu_body p) s = true) as ->.
  { destruct (sends_full _ _ _ _ _); split; auto; try discriminate. intros H. destruct (partial_not_full _ Hf H). }
  unfold sends_full, partial_ok. destruct (o_partial o) eqn:Ep; cbn [andb negb]; [|intuition].
  specialize (Hi Ep s). destruct (hb s1 s) as [t|]; cbn [negb].
  - destruct Hi as [q Hq]. rewrite negb_involutive. split.
    + intros H. right; right. exists t, q. auto.
    + intros [H|[H|(t' & q' & Hq' & H)]]; [discriminate|destruct (never_not_last _ _ _ _ H Hq)|]. destruct (last_full_unique _ _ _ _ _ _ Hq Hq') as [-> _]. exact H.
  - split; auto.
Qed.

(** ** UTF-8 and markings *)
Lemma truncate_none n s : 0 <= n -> (truncate n s = None <-> n < str_len s /\ forall a b, s = a ++ b -> str_len a <> n).
Proof.
  revert n. induction s as [|c s IH]; intros n Hn; cbn [truncate].
  - change (str_len []) with 0. destruct (n =? 0); (split; [discriminate|intros [H _]; lia]).
  - destruct (Z.eqb_spec n 0) as [->|H0].
    + split; [discriminate|]. intros [_ H]. exfalso. exact (H [] (c :: s) eq_refl eq_refl).
    + rewrite str_len_cons. destruct (Z.ltb_spec n (utf8_width c)) as [Hw|Hw].
      * split; [|reflexivity]. intros _. pose proof (str_len_nonneg s). split; [lia|]. intros [|d a] b He; [cbn; lia|]. injection He as <- _.
        rewrite str_len_cons. pose proof (str_len_nonneg a). lia.
      * specialize (IH (n - utf8_width c)). destruct (truncate (n - utf8_width c) s) as [r|].
        -- split; [discriminate|]. intros [H1 H2]. assert (None = None :> option (list Z)) as Hx by reflexivity. exfalso.
           assert (Some r = None) by (apply IH; [lia|]; split; [lia|]; intros a b He Ha; apply (H2 (c :: a) b); [rewrite He; reflexivity|rewrite str_len_cons; lia]). discriminate.
        -- split; [|reflexivity]. intros _. destruct IH as [IH _]; [lia|]. destruct (IH eq_refl) as [H1 H2]. split; [lia|]. intros [|d a] b He; [change (str_len []) with 0; lia|]. injection He as <- He.
           rewrite str_len_cons. specialize (H2 a b He). lia.
Qed.
Lemma truncate_some n s r : 0 <= n -> truncate n s = Some r -> exists b, s = r ++ b /\ str_len r <= n.
Proof.
  revert n r. induction s as [|c s IH]; intros n r Hn; cbn [truncate].
  - intros H. exists []. assert (r = []) as -> by (destruct (n =? 0); congruence). split; [reflexivity|]. cbn. lia.
  - destruct (Z.eqb_spec n 0) as [->|H0]; [intros H; injection H as <-; exists (c :: s); split; [reflexivity|cbn; lia]|].
    destruct (Z.ltb_spec n (utf8_width c)) as [Hw|Hw]; [discriminate|]. destruct (truncate (n - utf8_width c) s) as [q|] eqn:E; [|discriminate].
    intros H. injection H as <-. destruct (IH (n - utf8_width c) q ltac:(lia) E) as (b & -> & Hl). exists b. split; [reflexivity|]. rewrite str_len_cons. lia.
Qed.
Lemma cmarking_new_none s : cmarking_new s = None <-> 11 < str_len s /\ forall a b, s = a ++ b -> str_len a <> 11.
Proof.
  unfold cmarking_new. destruct (Z.ltb_spec 11 (str_len s)) as [H|H].
  - rewrite <- (truncate_none 11 s) by lia. destruct (truncate 11 s); split; congruence.
  - split; [discriminate|lia].
Qed.

(** A Rust string: the UTF-8 octets of its characters. The string can be cut at 11 octets when it is no longer than that or a character ends there. *)
Definition text (s : list Z) (octets : list Z) : Prop := Forall scalar s /\ utf8_encode s = octets.
Definition can_cut (s : list Z) : Prop := zlen (utf8_encode s) <= 11 \/ exists a b, s = a ++ b /\ zlen (utf8_encode a) = 11.
Lemma can_cut_spec s : can_cut s <-> cmarking_new s <> None.
Proof.
  unfold can_cut. rewrite utf8_encode_len. split.
  - intros H Hn. apply cmarking_new_none in Hn. destruct Hn as [H1 H2]. destruct H as [H|(a & b & He & Ha)]; [lia|]. rewrite utf8_encode_len in Ha. exact (H2 a b He Ha).
  - intros H. destruct (Z.le_gt_cases (str_len s) 11) as [|Hl]; [auto|]. right. unfold cmarking_new in H. destruct (Z.ltb_spec 11 (str_len s)); [|lia].
    destruct (truncate 11 s) as [r|] eqn:E; [|congruence]. 
    assert (forall n r, 0 <= n -> truncate n s = Some r -> n < str_len s -> exists a b, s = a ++ b /\ str_len a = n) as X.
    { clear. induction s as [|c s IH]; intros n r Hn; cbn [truncate].
      - change (str_len []) with 0. lia.
      - destruct (Z.eqb_spec n 0) as [->|H0]; [intros _ _; exists [], (c :: s); auto|]. destruct (Z.ltb_spec n (utf8_width c)) as [Hw|Hw]; [discriminate|].
        destruct (truncate (n - utf8_width c) s) as [q|] eqn:E; [|discriminate]. intros _ Hl. rewrite str_len_cons in Hl. destruct (IH (n - utf8_width c) q ltac:(lia) E ltac:(lia)) as (a & b & -> & Ha).
        exists (c :: a), b. split; [reflexivity|]. rewrite str_len_cons. lia. }
    destruct (X 11 r ltac:(lia) E Hl) as (a & b & He & Ha). exists a, b. rewrite utf8_encode_len. auto.
Qed.
Lemma enc_body_total g o now st b : (forall x, b = BEntityState x -> cmarking_new (utf8_lossy (mk_string (EntityState_marking x))) <> None) -> enc_body g o now st b <> None.
Proof.
  intros H. destruct b; cbn [enc_body]; try discriminate.
  1: unfold enc_es. destruct (partial_ok _ _ _ _); [discriminate|]. destruct (enc_world _ _). specialize (H x eq_refl). destruct (cmarking_new _); [discriminate|congruence].
  all: match goal with |- context [let (_, _) := ?e in _] => destruct e end; discriminate.
Qed.
(*@C41
 The C-DIS encoder survives any history in which the markings of Entity State PDUs, as Rust strings, are at most 11 octets or have a character that ends
 at octet 11 (all ASCII markings do): it gives one C-DIS PDU for each PDU. *)
Lemma cdis_encoder_survives_pf : forall g o l,
  Forall (fun i => forall x, pdu_body (snd i) = BEntityState x -> exists s, text s (mk_string (EntityState_marking x)) /\ can_cut s) l ->
  exists outs st, encode_all g o l = Some (outs, st) /\ length outs = length l.
Proof.
  intros g o l H. unfold encode_all. generalize enc_state_new. induction H as [|i l Hi _ IH]; intros st; cbn [run]; [eauto|].
  unfold encode_step at 1, encode. destruct i as [now p]. cbn [fst snd] in *. destruct (enc_body g o now st (pdu_body p)) as [[[b r] st']|] eqn:E.
  - destruct (IH st') as (outs & st2 & -> & Hl). eexists; eexists. split; [reflexivity|]. cbn [length]. now rewrite Hl.
  - exfalso. revert E. apply enc_body_total. intros x Hx. destruct (Hi x Hx) as (s & [Hs <-] & Hc). rewrite utf8_decode_encode by exact Hs. now apply can_cut_spec.
Qed.
(*@C41
 And it does not survive the others: whatever came before, an Entity State PDU that is to be sent in full with a marking that has no
 character boundary at octet 11 is a panic. *)
Lemma cdis_encoder_marking_panic_pf : forall g o l now h x s,
  o_partial o = false -> text s (mk_string (EntityState_marking x)) -> ~ can_cut s -> encode_all g o (l ++ [(now, MkPdu h (BEntityState x))]) = None.
Proof.
  intros g o l now h x s Hp [Hs Ht] Hc. unfold encode_all. generalize enc_state_new. induction l as [|i l IH]; intros st; cbn [run app].
  - unfold encode_step, encode. cbn [fst snd pdu_body enc_body]. unfold enc_es, partial_ok. rewrite Hp. cbn [andb]. destruct (enc_world _ _).
    rewrite <- Ht, utf8_decode_encode by exact Hs. destruct (cmarking_new s) eqn:E; [|reflexivity]. exfalso. apply Hc, can_cut_spec. congruence.
  - destruct (encode_step g o st i) as [[c st']|]; [|reflexivity]. rewrite IH. reflexivity.
Qed.
Definition ex_dis_es (n f : Z) (mk : list Z) : EntityState :=
  MkEntityState (MkEntityId (MkSimulationAddress 1 2) n) f (MkEntityType 1 2 225 1 2 3 4) zero_type zero_vec zero_loc zero_orientation (appearance_from_bytes 77 (MkEntityType 1 2 225 1 2 3 4))
    (MkDr 2 zero_dr_other zero_vec zero_vec) (MkMarking 1 mk) (capabilities_from_bytes 3 1 2) [].
Definition ex_dis (b : PduBody) : Pdu := MkPdu (header_new 7 3 (match b with BEntityState _ => 1 | BIff _ => 28 | _ => 15 end)) b.
(*@ex*)
Example cdis_encoder_survives_example : text [86; 105; 112; 101; 114] (mk_string (EntityState_marking (ex_dis_es 3 1 [86; 105; 112; 101; 114]))) /\ can_cut [86; 105; 112; 101; 114].
Proof. split; [split; [repeat constructor; unfold scalar; lia|reflexivity]|left; vm_compute; discriminate]. Qed.
(*@ex*)
Example cdis_encoder_marking_panic_example : let s := [65; 65; 65; 65; 65; 65; 65; 65; 65; 65; 233] in
  text s (mk_string (EntityState_marking (ex_dis_es 3 1 [65; 65; 65; 65; 65; 65; 65; 65; 65; 65; 195; 169]))) /\ ~ can_cut s.
Proof.
  split; [split; [repeat constructor; unfold scalar; lia|reflexivity]|]. intros H. apply can_cut_spec in H. apply H. reflexivity.
Qed.
(*@ex*)
Example cdis_full_update_example : forall g, exists outs st,
  encode_all g new_partial_update [(0, ex_dis (BEntityState (ex_dis_es 3 1 [86; 49]))); (second, ex_dis (BEntityState (ex_dis_es 3 1 [86; 49])));
     (2 * second, ex_dis (BEntityState (ex_dis_es 4 1 [86; 50]))); (13 * second, ex_dis (BEntityState (ex_dis_es 3 1 [86; 49])))] = Some (outs, st) /\
  map (fun c => flagged_full (cp_body c)) outs = [true; false; true; true].
Proof. intros g. eexists; eexists. split; [vm_compute; reflexivity|reflexivity]. Qed.

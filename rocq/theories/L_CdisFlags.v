(** * The fields-present flags of a C-DIS PDU, read (C29) *)
From Coq Require Import ZArith List Lia Bool.
From Verif Require Import Base CdisBase DisCommon DisLists DisEntity DisRadio DisIff CdisRecords CdisBodies1 CdisBodies2 CdisIff CdisPdu SpecCdisPdu SpecCdisRelay SpecCdisFlags
  L_CdisPdu L_CdisRelay.
Import ListNotations. Open Scope Z_scope.

(** a body whose first item is a word of [n] flags *)
Definition describes (n : Z) (i : list bool) (b : CBody) : Prop := flags_describe (firstn (Z.to_nat n) i) b.
Lemma flags_read {A} n (k : Z -> bitparser A) (f : A -> CBody) : 0 <= n ->
  (forall fp, BSafe (k fp) (fun x => flags_describe (ubits n fp) (f x))) ->
  forall i r x, pbind (btake n) k i = POk r x -> flags_describe (firstn (Z.to_nat n) i) (f x).
Proof.
  intros Hn H i r x E. unfold pbind, btake in E. destruct (Z.ltb_spec (zlen i) n) as [|L]; [discriminate|].
  specialize (H (uval (firstn (Z.to_nat n) i)) (skipn (Z.to_nat n) i)). rewrite E in H. unfold ubits in H. rewrite ubits_nat_uval in H; [exact H|].
  rewrite firstn_length. unfold zlen in L. lia.
Qed.
Lemma is_present {A} (o : option A) : present o = CdisBase.is_some o.
Proof. now destruct o. Qed.
Lemma counted {A} (l : list A) (n : option Z) b : zlen l = Z.of_nat (Z.to_nat (odflt n)) -> CdisBase.is_some n = b -> some_items l = true -> b = true.
Proof. destruct l as [|a t]; [discriminate|]. intros L E _. destruct n; [now rewrite <- E|]. unfold zlen in L. cbn [length odflt Z.to_nat] in L. lia. Qed.
Lemma BSafe_two_f {A B} (pa : bitparser A) (pb : bitparser B) fp : BSafe pa (fun _ => True) -> BSafe pb (fun _ => True) ->
  BSafe (p_two pa pb fp) (fun l => (some_items (fst l) = true -> field_present fp 2 = true) /\ (some_items (snd l) = true -> field_present fp 1 = true)).
Proof.
  intros Ha Hb. unfold p_two. eapply BSafe_bind; [eapply BSafe_when_s, BSafe_uvint8|]. intros na Hna. eapply BSafe_bind; [eapply BSafe_when_s, BSafe_uvint8|]. intros nb Hnb. cbv beta in *.
  eapply BSafe_bind; [eapply BSafe_count; exact Ha|]. intros x [_ Lx]. eapply BSafe_bind; [eapply BSafe_count; exact Hb|]. intros y [_ Ly]. apply BSafe_ret. cbn [fst snd].
  split; [eapply counted; [exact Lx|apply Hna]|eapply counted; [exact Ly|apply Hnb]].
Qed.
Lemma BSafe_cdatums_f fp : BSafe (p_cdatums fp) (fun d => (some_items (ds_fixed d) = true -> field_present fp 2 = true) /\ (some_items (ds_variable d) = true -> field_present fp 1 = true)).
Proof.
  unfold p_cdatums. eapply BSafe_bind; [eapply BSafe_two_f; [eapply BSafe_true, BSafe_cfd|eapply BSafe_true, BSafe_cvd]|]. intros [f v] [H1 H2]. apply BSafe_ret. split; assumption.
Qed.
Lemma BSafe_octets8_f fp mask : BSafe (p_octets8 fp mask) (fun l => some_items l = true -> field_present fp mask = true).
Proof.
  unfold p_octets8. eapply BSafe_bind; [eapply BSafe_when, BSafe_take; lia|]. intros n _. destruct (field_present fp mask).
  - eapply BSafe_weaken; [eapply BSafe_count, BSafe_take; lia|]. reflexivity.
  - apply BSafe_ret. discriminate.
Qed.
Lemma BSafe_vtps_f (b : bool) n : BSafe (if b then count p_cvtp n else pret []) (fun l => some_items l = true -> b = true).
Proof. destruct b; [|apply BSafe_ret; discriminate]. eapply BSafe_weaken; [eapply BSafe_count, BSafe_cvtp_s|]. reflexivity. Qed.
Lemma BSafe_cfo_f fp : BSafe (p_cfo fp) (fun x =>
  CdisBase.is_some (cfo_field1 x) = field_present fp 128 /\ CdisBase.is_some (cfo_field2 x) = field_present fp 64 /\ CdisBase.is_some (cfo_p1 x) = field_present fp 32 /\
  CdisBase.is_some (cfo_p2 x) = field_present fp 16 /\ CdisBase.is_some (cfo_p3 x) = field_present fp 8 /\ CdisBase.is_some (cfo_p4 x) = field_present fp 4 /\
  CdisBase.is_some (cfo_p5 x) = field_present fp 2 /\ CdisBase.is_some (cfo_p6 x) = field_present fp 1).
Proof. unfold p_cfo. rd. cbn [cfo_field1 cfo_field2 cfo_p1 cfo_p2 cfo_p3 cfo_p4 cfo_p5 cfo_p6]. rfin. Qed.
Ltac fl_atom := first
  [ apply BSafe_cdatums_f | apply BSafe_octets8_f | apply BSafe_vtps_f | apply BSafe_cfo_f
  | eapply BSafe_two_f; eapply BSafe_true, BSafe_take; lia
  | rd_atom ].
Ltac fl := repeat (eapply BSafe_bind; [fl_atom|let H := fresh "R" in intros ? H; cbv beta in H]); apply BSafe_ret.
Lemma flag_plain {A} fp k (o : option A) : 0 <= k -> CdisBase.is_some o = field_present fp (2 ^ k) -> agrees (Z.testbit fp k) (plain o).
Proof. intros K H. cbn [agrees plain]. rewrite is_present, H. now apply field_present_bit. Qed.
Lemma flag_listed {A} fp k (l : list A) : 0 <= k -> (some_items l = true -> field_present fp (2 ^ k) = true) -> agrees (Z.testbit fp k) (listed l).
Proof. intros K H. cbn [agrees listed]. intros S. rewrite <- field_present_bit by exact K. now apply H. Qed.
Ltac fl_end := unfold flags_describe, ubits; cbn [flagged_items both_lists Z.to_nat Pos.to_nat Pos.iter_op Nat.add ubits_nat];
  repeat first [apply Forall2_cons|apply Forall2_nil|apply Forall_cons|apply Forall_nil];
  first [eapply flag_plain; [apply Zle_0_nat|]|eapply flag_listed; [apply Zle_0_nat|]].
Lemma flags_ces : forall i r x, p_ces i = POk r x -> flags_describe (firstn (Z.to_nat 13) i) (CBEntityState x).
Proof. unfold p_ces. apply (flags_read 13 _ CBEntityState); [lia|]. intros fp. fl. fl_end; rfin; try (eapply counted; eassumption). Qed.
Lemma flags_cfire : forall i r x, p_cfire i = POk r x -> flags_describe (firstn (Z.to_nat 4) i) (CBFire x).
Proof. unfold p_cfire. apply (flags_read 4 _ CBFire); [lia|]. intros fp. fl. fl_end; rfin; try (eapply counted; eassumption). Qed.
Lemma flags_cdetonation : forall i r x, p_cdetonation i = POk r x -> flags_describe (firstn (Z.to_nat 4) i) (CBDetonation x).
Proof. unfold p_cdetonation. apply (flags_read 4 _ CBDetonation); [lia|]. intros fp. fl. fl_end; rfin; try (eapply counted; eassumption). Qed.
Lemma flags_cactreq : forall i r x, p_cactreq i = POk r x -> flags_describe (firstn (Z.to_nat 2) i) (CBActionRequest x).
Proof. unfold p_cactreq. apply (flags_read 2 _ CBActionRequest); [lia|]. intros fp. fl. fl_end; rfin; try (eapply counted; eassumption). Qed.
Lemma flags_cactres : forall i r x, p_cactres i = POk r x -> flags_describe (firstn (Z.to_nat 2) i) (CBActionResponse x).
Proof. unfold p_cactres. apply (flags_read 2 _ CBActionResponse); [lia|]. intros fp. fl. fl_end; rfin; try (eapply counted; eassumption). Qed.
Lemma flags_cquery : forall i r x, p_cquery i = POk r x -> flags_describe (firstn (Z.to_nat 2) i) (CBDataQuery x).
Proof. unfold p_cquery. apply (flags_read 2 _ CBDataQuery); [lia|]. intros fp. fl. fl_end; rfin; try (eapply counted; eassumption). Qed.
Lemma flags_csetdata : forall i r x, p_csetdata i = POk r x -> flags_describe (firstn (Z.to_nat 2) i) (CBSetData x).
Proof. unfold p_csetdata. apply (flags_read 2 _ CBSetData); [lia|]. intros fp. fl. fl_end; rfin; try (eapply counted; eassumption). Qed.
Lemma flags_cdata : forall i r x, p_cdata i = POk r x -> flags_describe (firstn (Z.to_nat 2) i) (CBData x).
Proof. unfold p_cdata. apply (flags_read 2 _ CBData); [lia|]. intros fp. fl. fl_end; rfin; try (eapply counted; eassumption). Qed.
Lemma flags_cevent : forall i r x, p_cevent i = POk r x -> flags_describe (firstn (Z.to_nat 2) i) (CBEventReport x).
Proof. unfold p_cevent. apply (flags_read 2 _ CBEventReport); [lia|]. intros fp. fl. fl_end; rfin; try (eapply counted; eassumption). Qed.
Lemma flags_ccomment : forall i r x, p_ccomment i = POk r x -> flags_describe (firstn (Z.to_nat 2) i) (CBComment x).
Proof. unfold p_ccomment. apply (flags_read 2 _ CBComment); [lia|]. intros fp. fl. fl_end; rfin; try (eapply counted; eassumption). Qed.
Lemma flags_cdesignator : forall i r x, p_cdesignator i = POk r x -> flags_describe (firstn (Z.to_nat 4) i) (CBDesignator x).
Proof. unfold p_cdesignator. apply (flags_read 4 _ CBDesignator); [lia|]. intros fp. fl. fl_end; rfin; try (eapply counted; eassumption). Qed.
Lemma flags_ctransmitter : forall i r x, p_ctransmitter i = POk r x -> flags_describe (firstn (Z.to_nat 8) i) (CBTransmitter x).
Proof. unfold p_ctransmitter. apply (flags_read 8 _ CBTransmitter); [lia|]. intros fp. fl. fl_end; rfin; try (eapply counted; eassumption). Qed.
Lemma flags_csignal : forall i r x, p_csignal i = POk r x -> flags_describe (firstn (Z.to_nat 2) i) (CBSignal x).
Proof. unfold p_csignal. apply (flags_read 2 _ CBSignal); [lia|]. intros fp. fl. fl_end; rfin; try (eapply counted; eassumption). Qed.
Lemma flags_ciff : forall i r x, p_ciff i = POk r x -> flags_describe (firstn (Z.to_nat 12) i) (CBIff x).
Proof. unfold p_ciff. apply (flags_read 12 _ CBIff); [lia|]. intros fp. fl. fl_end; rfin; try (eapply counted; eassumption). Qed.
(*@C29 Reading: the fields-present flags with which a C-DIS body begins describe the body that is read. Flag by flag, most significant first: every
   plain item the flag stands for is in the PDU exactly when the flag is set - so all items of a group come and go together - and a list has an
   element only if its flag is set. Nothing is read that was not announced, and nothing announced is passed over. *)
Lemma cdis_flags_read_pf : forall t i rest b, p_cbody t i = POk rest b -> flags_describe (firstn (length (flagged_items b)) i) b.
Proof.
  intros t i rest b E. unfold p_cbody in E.
  repeat match type of E with (if ?c then _ else _) _ = _ => destruct c end.
  all: try (unfold pbind at 1 in E; match type of E with match ?q with _ => _ end = _ => destruct q as [r1 x| |] eqn:P; try discriminate end; cbv [pret] in E).
  all: injection E as <- <-; try (apply Forall2_nil).
  - exact (flags_ces _ _ _ P).
  - exact (flags_cfire _ _ _ P).
  - exact (flags_cdetonation _ _ _ P).
  - exact (flags_cactreq _ _ _ P).
  - exact (flags_cactres _ _ _ P).
  - exact (flags_cquery _ _ _ P).
  - exact (flags_csetdata _ _ _ P).
  - exact (flags_cdata _ _ _ P).
  - exact (flags_cevent _ _ _ P).
  - exact (flags_ccomment _ _ _ P).
  - exact (flags_cdesignator _ _ _ P).
  - exact (flags_ctransmitter _ _ _ P).
  - exact (flags_csignal _ _ _ P).
  - exact (flags_ciff _ _ _ P).
Qed.
(*@C29 The same for a whole PDU: the flags are the first bits after the header. *)
Lemma cdis_pdu_flags_read_pf : forall i rest p, p_cpdu i = POk rest p ->
  exists body, p_cheader i = POk body (cp_header p) /\ flags_describe (firstn (length (flagged_items (cp_body p))) body) (cp_body p).
Proof.
  intros i rest p E. unfold p_cpdu, pbind in E. destruct (p_cheader i) as [r h| |] eqn:H; try discriminate. destruct (p_cbody (ch_type h) r) as [r2 b| |] eqn:B; try discriminate.
  injection E as <- <-. exists r. split; [reflexivity|]. exact (cdis_flags_read_pf _ _ _ _ B).
Qed.
(*@C29 Reading and writing use one table: the flag a writer sets is that all the items listed for the flag here are there. *)
Lemma cdis_flags_table_pf : forall b, presence_flags b = map (forallb item_there) (flagged_items b).
Proof. destruct b; cbn [presence_flags flagged_items both_lists datum_flags map forallb item_there plain listed]; rewrite ?andb_true_r, ?andb_assoc; reflexivity. Qed.
(*@C29 The one way out, and it is real: a list's flag may be set although the list is empty, its length on the wire being zero. The library then writes the
   PDU back with the flag cleared and the length left out. *)
Lemma cdis_idle_list_flag_pf : exists t i rest b bs, p_cbody t i = POk rest b /\ firstn 2 i = [true; true] /\ presence_flags b = [false; false] /\
  w_cbody Checked b = WOk bs tt /\ firstn 2 bs = [false; false] /\ zlen bs < zlen i - zlen rest.
Proof.
  exists 16, ([true; true] ++ ubits 160 0). do 3 eexists. split; [vm_compute; reflexivity|]. split; [reflexivity|]. split; [reflexivity|].
  split; [vm_compute; reflexivity|]. split; [reflexivity|]. vm_compute. reflexivity.
Qed.
(*@ex*)
Example cdis_flags_example : exists rest b, p_cbody 26 ([true; false] ++ ubits 160 0) = POk rest b /\ flagged_items b = [[Plain true]; [Plain false]].
Proof. do 2 eexists. split; [vm_compute; reflexivity|reflexivity]. Qed.

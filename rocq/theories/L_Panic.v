(** * Lemmas behind Props_Panic.v: exactly which octets make a build with overflow checks panic while parsing (C12) *)
From Coq Require Import ZArith List Lia Bool.
From Verif Require Import Base DisCommon DisLists DisSimman DisLogistics DisWarfare DisEntity DisEmission DisRadio DisIff DisHeader DisPdu DisPacket SpecWire SpecPanic L_Wire.
Import ListNotations. Open Scope Z_scope.

Lemma skip_skip {A} a b (l : list A) : skipn a (skipn b l) = skipn (b + a) l.
Proof. revert l. induction b as [|b IH]; intros [|x l]; cbn [skipn Nat.add]; auto. now destruct a. Qed.
Lemma zlen_skip (l : list Z) k : zlen (skipn k l) = Z.max 0 (zlen l - Z.of_nat k).
Proof. unfold zlen. rewrite skipn_length. lia. Qed.
Lemma byte_at i k : bytes i -> 0 <= nth k i 0 < 256.
Proof.
  intros B. destruct (nth_in_or_default k i 0) as [X | ->]; [|lia]. unfold bytes in B. rewrite Forall_forall in B. specialize (B _ X). unfold u8 in B. lia.
Qed.
Lemma u16_at_range i k : bytes i -> 0 <= u16_at i k < 65536.
Proof. intros B. unfold u16_at. pose proof (byte_at i k B). pose proof (byte_at i (S k) B). lia. Qed.
Lemma u16_at_skip i j k : u16_at (skipn j i) k = u16_at i (j + k).
Proof. unfold u16_at. rewrite !nth_skipn_z. now replace (j + S k)%nat with (S (j + k)) by lia. Qed.
Lemma bytes_skip i k : bytes i -> bytes (skipn k i).
Proof. intros B. rewrite <- (firstn_skipn k i) in B. apply Forall_app in B. tauto. Qed.

(** [Skips p n]: [p] reads exactly [n] octets, or fails for want of them *)
Definition Skips {A} (p : bparser A) (n : nat) : Prop := forall i,
  (zlen i < Z.of_nat n -> p i = PErr Eof) /\ (Z.of_nat n <= zlen i -> exists a, p i = POk (skipn n i) a).
Lemma Skips_ret {A} (a : A) : Skips (pret a) 0.
Proof. intros i. split; [pose proof (zlen_nonneg i); lia|]. intros _. exists a. reflexivity. Qed.
Lemma Skips_bind {A B} (p : bparser A) (q : A -> bparser B) n k : Skips p n -> (forall a, Skips (q a) k) -> Skips (pbind p q) (n + k).
Proof.
  intros Hp Hq i. destruct (Hp i) as [H1 H2]. unfold pbind. destruct (Z_lt_ge_dec (zlen i) (Z.of_nat n)) as [L|L].
  - rewrite (H1 L). split; [reflexivity|lia].
  - destruct (H2 ltac:(lia)) as [a ->]. destruct (Hq a (skipn n i)) as [H3 H4]. rewrite zlen_skip in H3, H4.
    rewrite (skip_skip k n i) in H4. split; intros; [apply H3|apply H4]; lia.
Qed.
Lemma Skips_be n : Skips (be_u n) n.
Proof.
  intros i. unfold be_u, zlen. destruct (Nat.ltb_spec (length i) n); split; intros; try lia; try reflexivity. eexists; reflexivity.
Qed.
Lemma Skips_take n : Skips (take (Z.of_nat n)) n.
Proof.
  intros i. unfold take. destruct (Z.ltb_spec (zlen i) (Z.of_nat n)); split; intros; try lia; try reflexivity. rewrite Nat2Z.id. eexists; reflexivity.
Qed.
Lemma Skips_count {A} (p : bparser A) n k : Skips p n -> Skips (count_nat p k) (k * n).
Proof.
  intros H. induction k as [|k IH]; cbn [count_nat Nat.mul]; [apply Skips_ret|].
  apply Skips_bind; [exact H|]. intros a. replace (k * n)%nat with (k * n + 0)%nat by lia. apply Skips_bind; [exact IH|]. intros l. apply Skips_ret.
Qed.
Lemma Skips_count3 {A B} (p : bparser A) n (f : A -> A -> A -> B) : Skips p n ->
  Skips (pbind (count p 3) (fun l => match l with [a; b; c] => pret (f a b c) | _ => ppanic end)) (3 * n).
Proof.
  intros H i. unfold count. change (Z.to_nat 3) with 3%nat. unfold count_nat, pbind, pret.
  destruct (H i) as [A1 A2]. destruct (Z_lt_ge_dec (zlen i) (Z.of_nat n)) as [L|L]; [rewrite (A1 L); split; [reflexivity|lia]|]. destruct (A2 ltac:(lia)) as [a ->].
  destruct (H (skipn n i)) as [B1 B2]. rewrite zlen_skip in B1, B2. destruct (Z_lt_ge_dec (zlen i) (Z.of_nat (2 * n))) as [L2|L2]; [rewrite B1 by lia; split; [reflexivity|lia]|]. destruct (B2 ltac:(lia)) as [b ->].
  rewrite skip_skip. destruct (H (skipn (n + n) i)) as [C1 C2]. rewrite zlen_skip in C1, C2. destruct (Z_lt_ge_dec (zlen i) (Z.of_nat (3 * n))) as [L3|L3]; [rewrite C1 by lia; split; [reflexivity|lia]|]. destruct (C2 ltac:(lia)) as [c ->].
  rewrite skip_skip. split; [lia|]. intros _. exists (f a b c). now replace (n + n + n)%nat with (3 * n)%nat by lia.
Qed.
Lemma Skips_cast {A} (p : bparser A) n k : Skips p n -> n = k -> Skips p k. Proof. now intros H <-. Qed.
Ltac sk := repeat first
  [ apply Skips_be | apply Skips_ret | match goal with |- Skips (take ?z) _ => let n := eval vm_compute in (Z.to_nat z) in change z with (Z.of_nat n); apply Skips_take end
  | eapply Skips_bind; [|intros ?] ].
Ltac skip p := eapply Skips_cast; [unfold p, be_f32, be_f64, be_u8, be_u16, be_u32, be_u64; sk|reflexivity].
Lemma Skips_simulation_address : Skips p_simulation_address 4. Proof. skip p_simulation_address. Qed.
Lemma Skips_entity_id : Skips p_entity_id 6.
Proof. eapply Skips_cast; [unfold p_entity_id; eapply Skips_bind; [apply Skips_simulation_address|intros ?]; unfold be_u16; sk|reflexivity]. Qed.
Lemma Skips_entity_type : Skips p_entity_type 8. Proof. skip p_entity_type. Qed.
Lemma Skips_vec3 : Skips p_vec3_f32 12. Proof. unfold p_vec3_f32. change 12%nat with (3 * 4)%nat. apply Skips_count3. apply Skips_be. Qed.
Lemma Skips_orientation : Skips p_orientation 12. Proof. unfold p_orientation. change 12%nat with (3 * 4)%nat. apply Skips_count3. apply Skips_be. Qed.
Lemma Skips_location : Skips p_location 24. Proof. unfold p_location. change 24%nat with (3 * 8)%nat. apply Skips_count3. apply Skips_be. Qed.
Lemma Skips_modulation_type : Skips p_modulation_type 8. Proof. skip p_modulation_type. Qed.
Lemma Skips_crypto : Skips p_crypto_key_id 2. Proof. skip p_crypto_key_id. Qed.
Lemma Skips_aggregate_type : Skips p_aggregate_type 8. Proof. skip p_aggregate_type. Qed.
Lemma Skips_marking31 : Skips (p_marking 31) 32. Proof. unfold p_marking. skip be_u8. Qed.
Lemma Skips_bap : Skips p_beam_antenna_pattern 40.
Proof. eapply Skips_cast; [unfold p_beam_antenna_pattern; eapply Skips_bind; [apply Skips_orientation|intros ?]; unfold be_f32, be_u8, be_u16, be_u32; sk|reflexivity]. Qed.

(** [Pan p k i P]: from offset [k] of [i] the parser [p] panics exactly if [P] *)
Definition Pan {A} (p : bparser A) (k : nat) (i : list Z) (P : Prop) : Prop := p (skipn k i) = PPanic <-> P.
Lemma Pan_skip {A B} (p : bparser A) (q : A -> bparser B) n k i (P : Prop) : Skips p n -> Z.of_nat k <= zlen i ->
  (P -> Z.of_nat (k + n) <= zlen i) -> (Z.of_nat (k + n) <= zlen i -> forall a, Pan (q a) (k + n) i P) -> Pan (pbind p q) k i P.
Proof.
  intros Hp Hk HP Hq. unfold Pan, pbind. destruct (Hp (skipn k i)) as [H1 H2]. rewrite zlen_skip in H1, H2.
  destruct (Z_lt_ge_dec (zlen i) (Z.of_nat (k + n))) as [L|L].
  - rewrite H1 by lia. split; [discriminate|]. intros X. specialize (HP X). lia.
  - destruct H2 as [a ->]; [lia|]. rewrite skip_skip. exact (Hq ltac:(lia) a).
Qed.
Lemma Pan_be {B} (q : Z -> bparser B) n k i (P : Prop) : Z.of_nat k <= zlen i ->
  (P -> Z.of_nat (k + n) <= zlen i) -> (Z.of_nat (k + n) <= zlen i -> Pan (q (be_val (firstn n (skipn k i)))) (k + n) i P) -> Pan (pbind (be_u n) q) k i P.
Proof.
  intros Hk HP Hq. unfold Pan, pbind, be_u. rewrite skipn_length. unfold zlen in *. destruct (Nat.ltb_spec (length i - k) n) as [L|L].
  - split; [discriminate|]. intros X. specialize (HP X). lia.
  - rewrite skip_skip. exact (Hq ltac:(lia)).
Qed.
Lemma first_nth k (i : list Z) d : (k < length i)%nat -> skipn k i = nth k i d :: skipn (S k) i.
Proof. revert i. induction k as [|k IH]; intros [|x i] H; cbn [length] in H; try lia; [reflexivity|]. cbn [skipn nth]. apply IH. lia. Qed.
Lemma be2_at k i : Z.of_nat (k + 2) <= zlen i -> be_val (firstn 2 (skipn k i)) = u16_at i k.
Proof.
  unfold zlen. intros H. rewrite (first_nth k i 0) by lia. rewrite (first_nth (S k) i 0) by lia. cbn [firstn]. unfold be_val, u16_at. cbn [fold_left]. lia.
Qed.
Lemma be1_at k i : Z.of_nat (k + 1) <= zlen i -> be_val (firstn 1 (skipn k i)) = nth k i 0.
Proof. unfold zlen. intros H. rewrite (first_nth k i 0) by lia. cbn [firstn]. unfold be_val. cbn [fold_left]. lia. Qed.
Lemma be4_at k i : Z.of_nat (k + 4) <= zlen i -> be_val (firstn 4 (skipn k i)) = u32_at i k.
Proof.
  unfold zlen. intros H. rewrite (first_nth k i 0), (first_nth (S k) i 0), (first_nth (S (S k)) i 0), (first_nth (S (S (S k))) i 0) by lia.
  cbn [firstn]. unfold be_val, u32_at, u16_at. cbn [fold_left]. lia.
Qed.
Lemma Pan_u8 {B} (q : Z -> bparser B) k i (P : Prop) : Z.of_nat k <= zlen i -> (P -> Z.of_nat (k + 1) <= zlen i) ->
  (Z.of_nat (k + 1) <= zlen i -> Pan (q (nth k i 0)) (k + 1) i P) -> Pan (pbind be_u8 q) k i P.
Proof. intros Hk HP H. apply Pan_be; [exact Hk|exact HP|]. intros L. rewrite be1_at by exact L. auto. Qed.
Lemma Pan_u16 {B} (q : Z -> bparser B) k i (P : Prop) : Z.of_nat k <= zlen i -> (P -> Z.of_nat (k + 2) <= zlen i) ->
  (Z.of_nat (k + 2) <= zlen i -> Pan (q (u16_at i k)) (k + 2) i P) -> Pan (pbind be_u16 q) k i P.
Proof. intros Hk HP H. apply Pan_be; [exact Hk|exact HP|]. intros L. rewrite be2_at by exact L. auto. Qed.
Lemma Pan_u32 {B} (q : Z -> bparser B) k i (P : Prop) : Z.of_nat k <= zlen i -> (P -> Z.of_nat (k + 4) <= zlen i) ->
  (Z.of_nat (k + 4) <= zlen i -> Pan (q (u32_at i k)) (k + 4) i P) -> Pan (pbind be_u32 q) k i P.
Proof. intros Hk HP H. apply Pan_be; [exact Hk|exact HP|]. intros L. rewrite be4_at by exact L. auto. Qed.
Lemma Pan_take {B} (q : list Z -> bparser B) n k i (P : Prop) : 0 <= n -> Z.of_nat k <= zlen i -> (P -> Z.of_nat k + n <= zlen i) ->
  (Z.of_nat k + n <= zlen i -> forall a, Pan (q a) (k + Z.to_nat n) i P) -> Pan (pbind (take n) q) k i P.
Proof.
  intros Hn Hk HP Hq. replace n with (Z.of_nat (Z.to_nat n)) by lia. apply (Pan_skip _ _ (Z.to_nat n)); [apply Skips_take|exact Hk| |].
  - intros X. specialize (HP X). lia.
  - intros L. apply Hq. lia.
Qed.
(** a parser that ends safely panics never *)
Lemma Pan_safe {A} (p : bparser A) k i (P : Prop) Q : SafeP p Q -> bytes i -> ~ P -> Pan p k i P.
Proof.
  intros S B N. pose proof (S _ (bytes_skip i k B)) as X. unfold Pan. split; [|tauto]. intros E. rewrite E in X. contradiction.
Qed.
Lemma Pan_bind_ret {A B} (p : bparser A) (f : A -> B) k i (P : Prop) : Pan p k i P -> Pan (pbind p (fun a => pret (f a))) k i P.
Proof. unfold Pan, pbind, pret. intros <-. destruct (p (skipn k i)); split; intros X; try discriminate X; reflexivity. Qed.
Lemma Pan_count {A} (p : bparser A) (H : list Z -> Prop) (step : list Z -> nat) (G : list Z -> Prop) (S : Z -> list Z -> Prop) :
  (forall i, bytes i -> (p i = PPanic <-> H i)) ->
  (forall i, bytes i -> ((exists r a, p i = POk r a) <-> G i)) ->
  (forall i r a, bytes i -> p i = POk r a -> r = skipn (step i) i) ->
  (forall n i, S n i <-> 0 < n /\ (H i \/ G i /\ S (n - 1) (skipn (step i) i))) ->
  forall n i, bytes i -> (count p n i = PPanic <-> S n i).
Proof.
  intros HH HG Hs HS n i. unfold count. destruct (Z_lt_ge_dec n 0) as [L|L].
  { intros B. replace (Z.to_nat n) with 0%nat by lia. cbn [count_nat]. rewrite HS. split; [discriminate|lia]. }
  replace (S n) with (S (Z.of_nat (Z.to_nat n))) by (f_equal; lia). clear L. generalize (Z.to_nat n). clear n. intros n. revert i.
  induction n as [|n IH]; intros i B; cbn [count_nat]; rewrite HS.
  - split; [discriminate|lia].
  - unfold pbind, pret. split.
    + intros E. split; [lia|]. destruct (p i) as [r a|k|] eqn:E1; try discriminate E; [|left; apply HH; assumption].
      right. split; [apply HG; eauto|]. specialize (Hs _ _ _ B E1). subst r.
      replace (Z.of_nat (Datatypes.S n) - 1) with (Z.of_nat n) by lia. apply IH; [apply bytes_skip; exact B|].
      destruct (count_nat p n _); try discriminate E; reflexivity.
    + intros (_ & [X|[X Y]]); [apply HH in X; [now rewrite X|exact B]|].
      apply HG in X; [|exact B]. destruct X as (r & a & E1). rewrite E1. specialize (Hs _ _ _ B E1). subst r.
      replace (Z.of_nat (Datatypes.S n) - 1) with (Z.of_nat n) in Y by lia. apply IH in Y; [|apply bytes_skip; exact B]. now rewrite Y.
Qed.

(** ** Variable transmitter parameters *)
Lemma vtp_at i : bytes i -> p_vtp Checked i =
  (if zlen i <? 6 then PErr Eof else if u16_at i 4 <? 6 then PPanic else if zlen i <? u16_at i 4 then PErr Eof
   else POk (skipn (Z.to_nat (u16_at i 4)) i) (MkVTP (u32_at i 0) (firstn (Z.to_nat (u16_at i 4 - 6)) (skipn 6 i)))).
Proof.
  intros B. pose proof (u16_at_range i 4 B). unfold p_vtp, pbind, be_u32, be_u16, be_u at 1, pret. destruct (Nat.ltb_spec (length i) 4) as [L|L].
  { unfold zlen. destruct (Z.ltb_spec (Z.of_nat (length i)) 6); [reflexivity|lia]. }
  unfold be_u. rewrite skipn_length. destruct (Nat.ltb_spec (length i - 4) 2) as [L2|L2]; unfold zlen at 1; destruct (Z.ltb_spec (Z.of_nat (length i)) 6); try lia; try reflexivity.
  rewrite be2_at by (unfold zlen; lia). replace (be_val (firstn 4 i)) with (u32_at i 0) by (symmetry; apply (be4_at 0); unfold zlen; lia). rewrite skip_skip. cbn [Nat.add].
  unfold parith. destruct (Z.ltb_spec (u16_at i 4) 6) as [L3|L3].
  - destruct (Z.leb_spec 0 (u16_at i 4 - 6)); [lia|]. reflexivity.
  - destruct (Z.leb_spec 0 (u16_at i 4 - 6)); [|lia]. destruct (Z.ltb_spec (u16_at i 4 - 6) 65536); [|lia]. cbn [andb]. unfold pret, take. rewrite zlen_skip.
    destruct (Z.ltb_spec (zlen i) (u16_at i 4)) as [L4|L4]; unfold zlen in *; destruct (Z.ltb_spec (Z.max 0 (Z.of_nat (length i) - Z.of_nat 6)) (u16_at i 4 - 6)); try lia; [reflexivity|].
    rewrite skip_skip. now replace (6 + Z.to_nat (u16_at i 4 - 6))%nat with (Z.to_nat (u16_at i 4)) by lia.
Qed.
Lemma vtps_panic n i : bytes i -> (count (p_vtp Checked) n i = PPanic <-> short_record n i).
Proof.
  apply (Pan_count (p_vtp Checked) (fun i => 6 <= zlen i /\ u16_at i 4 < 6) (fun i => Z.to_nat (u16_at i 4)) (fun i => 6 <= u16_at i 4 <= zlen i)); clear n i.
  - intros i B. rewrite vtp_at by exact B. repeat match goal with |- context [?a <? ?b] => destruct (Z.ltb_spec a b) end; split; try discriminate; try reflexivity; lia.
  - intros i B. rewrite vtp_at by exact B. repeat match goal with |- context [?a <? ?b] => destruct (Z.ltb_spec a b) end; split; try lia; try (intros (? & ? & ?); discriminate). eauto.
  - intros i r a B. rewrite vtp_at by exact B. repeat match goal with |- context [?a <? ?b] => destruct (Z.ltb_spec a b) end; try discriminate. intros E; now injection E.
  - intros n i. split.
    + inversion 1; subst; tauto.
    + intros (? & [[? ?]|[? ?]]); [apply short_record_here|apply short_record_later]; assumption.
Qed.

(** ** Record sets *)
Lemma Skips_takes len cnt : 0 <= len -> 0 <= cnt -> Skips (count (take len) cnt) (Z.to_nat (len * cnt)).
Proof.
  intros Hl Hc. unfold count. replace (Z.to_nat (len * cnt)) with (Z.to_nat cnt * Z.to_nat len)%nat by (rewrite Z.mul_comm, Z2Nat.inj_mul by lia; reflexivity).
  apply Skips_count. replace len with (Z.of_nat (Z.to_nat len)) at 1 by lia. apply Skips_take.
Qed.
Lemma record_octets_range i : bytes i -> 0 <= (u16_at i 12 + 7) / 8 /\ 0 <= u16_at i 14 /\ 0 <= record_octets i.
Proof.
  intros B. pose proof (u16_at_range i 12 B). pose proof (u16_at_range i 14 B). assert (0 <= (u16_at i 12 + 7) / 8) by (apply Z.div_pos; lia).
  unfold record_octets. nia.
Qed.
Lemma pad8 t : 0 <= t -> t + pad_to t 8 = (t + 7) / 8 * 8 /\ 0 <= pad_to t 8.
Proof.
  intros H. unfold pad_to. pose proof (Z.mod_pos_bound (- t) 8 ltac:(lia)). split; [|lia]. Z.to_euclidean_division_equations. lia.
Qed.
Lemma be_at n k i : be_u n (skipn k i) = if (length i - k <? n)%nat then PErr Eof else POk (skipn (k + n) i) (be_val (firstn n (skipn k i))).
Proof. unfold be_u. rewrite skipn_length. destruct (_ <? _)%nat; [reflexivity|]. now rewrite skip_skip. Qed.
Lemma set_at i : bytes i -> exists a, p_record_set Checked i =
  (if zlen i <? 16 + record_octets i then PErr Eof else if 65536 <=? record_octets i then PPanic
   else if zlen i <? 16 + (record_octets i + 7) / 8 * 8 then PErr Eof
   else POk (skipn (Z.to_nat (16 + (record_octets i + 7) / 8 * 8)) i) a).
Proof.
  intros B. destruct (record_octets_range i B) as (R1 & R2 & R3). destruct (pad8 (record_octets i) R3) as [P1 P2].
  change i with (skipn 0 i) at 1. unfold p_record_set, pbind, be_u32, be_u16, pret. cbv zeta.
  rewrite (be_at 4 0). destruct (Nat.ltb_spec (length i - 0) 4) as [L|L]. { exists (MkRecordSet 0 0 0 []). unfold zlen. destruct (Z.ltb_spec (Z.of_nat (length i)) (16 + record_octets i)); [reflexivity|lia]. }
  rewrite (be_at 4). destruct (Nat.ltb_spec (length i - (0 + 4)) 4) as [L1|L1]. { exists (MkRecordSet 0 0 0 []). unfold zlen. destruct (Z.ltb_spec (Z.of_nat (length i)) (16 + record_octets i)); [reflexivity|lia]. }
  rewrite (be_at 4). destruct (Nat.ltb_spec (length i - (0 + 4 + 4)) 4) as [L2|L2]. { exists (MkRecordSet 0 0 0 []). unfold zlen. destruct (Z.ltb_spec (Z.of_nat (length i)) (16 + record_octets i)); [reflexivity|lia]. }
  rewrite (be_at 2). destruct (Nat.ltb_spec (length i - (0 + 4 + 4 + 4)) 2) as [L3|L3]. { exists (MkRecordSet 0 0 0 []). unfold zlen. destruct (Z.ltb_spec (Z.of_nat (length i)) (16 + record_octets i)); [reflexivity|lia]. }
  rewrite (be_at 2). destruct (Nat.ltb_spec (length i - (0 + 4 + 4 + 4 + 2)) 2) as [L4|L4]. { exists (MkRecordSet 0 0 0 []). unfold zlen. destruct (Z.ltb_spec (Z.of_nat (length i)) (16 + record_octets i)); [reflexivity|lia]. }
  cbn [Nat.add] in *. rewrite !(be2_at _ i) by (unfold zlen; lia).
  destruct (Skips_takes _ _ R1 R2 (skipn 16 i)) as [S1 S2]. fold (record_octets i) in S1, S2. rewrite zlen_skip in S1, S2.
  destruct (Z.ltb_spec (zlen i) (16 + record_octets i)) as [L5|L5]. { exists (MkRecordSet 0 0 0 []). rewrite S1 by (unfold zlen in *; lia). reflexivity. }
  destruct S2 as [recs E]; [lia|]. rewrite E. rewrite skip_skip. unfold parith. fold (record_octets i).
  destruct (Z.leb_spec 0 (record_octets i)); [|lia]. cbn [andb]. destruct (Z.ltb_spec (record_octets i) 65536) as [L6|L6].
  2: { exists (MkRecordSet 0 0 0 []). destruct (Z.leb_spec 65536 (record_octets i)); [reflexivity|lia]. }
  destruct (Z.leb_spec 65536 (record_octets i)); [lia|]. unfold pret. rewrite p_padded_ok by lia. cbn [pl_padding]. unfold take. rewrite zlen_skip.
  destruct (Z.ltb_spec (zlen i) (16 + (record_octets i + 7) / 8 * 8)) as [L7|L7].
  - exists (MkRecordSet 0 0 0 []). destruct (Z.ltb_spec (Z.max 0 (zlen i - Z.of_nat (16 + Z.to_nat (record_octets i)))) (pad_to (record_octets i) 8)); [reflexivity|lia].
  - eexists. destruct (Z.ltb_spec (Z.max 0 (zlen i - Z.of_nat (16 + Z.to_nat (record_octets i)))) (pad_to (record_octets i) 8)); [lia|]. rewrite skip_skip.
    replace (16 + Z.to_nat (record_octets i) + Z.to_nat (pad_to (record_octets i) 8))%nat with (Z.to_nat (16 + (record_octets i + 7) / 8 * 8)) by lia. reflexivity.
Qed.
Lemma sets_panic n i : bytes i -> (count (p_record_set Checked) n i = PPanic <-> huge_set n i).
Proof.
  apply (Pan_count (p_record_set Checked) (fun i => 16 + record_octets i <= zlen i /\ 65536 <= record_octets i)
    (fun i => Z.to_nat (16 + (record_octets i + 7) / 8 * 8)) (fun i => 16 + (record_octets i + 7) / 8 * 8 <= zlen i /\ record_octets i < 65536)); clear n i.
  - intros i B. destruct (set_at i B) as [a ->]. repeat match goal with |- context [?a <? ?b] => destruct (Z.ltb_spec a b) | |- context [?a <=? ?b] => destruct (Z.leb_spec a b) end; split; try discriminate; try reflexivity; lia.
  - intros i B. destruct (record_octets_range i B) as (_ & _ & R). destruct (pad8 _ R) as [P1 P2]. destruct (set_at i B) as [a ->]. repeat match goal with |- context [?a <? ?b] => destruct (Z.ltb_spec a b) | |- context [?a <=? ?b] => destruct (Z.leb_spec a b) end; split; try lia; try (intros (? & ? & ?); discriminate). eauto.
  - intros i r a B. destruct (set_at i B) as [x ->]. repeat match goal with |- context [?a <? ?b] => destruct (Z.ltb_spec a b) | |- context [?a <=? ?b] => destruct (Z.leb_spec a b) end; try discriminate. intros E; now injection E.
  - intros n i. split.
    + inversion 1; subst; tauto.
    + intros (? & [[? ?]|[[? ?] ?]]); [apply huge_set_here|apply huge_set_later]; assumption.
Qed.

(** ** The bodies *)
Ltac bound := let X := fresh in intros X; decompose [and] X; lia.
Lemma recspec_panic k i (P : Prop) : bytes i -> Z.of_nat k <= zlen i -> (P <-> Z.of_nat k + 4 <= zlen i /\ huge_set (u32_at i k) (skipn (k + 4) i)) ->
  Pan (p_record_specification Checked) k i P.
Proof.
  intros B L HP. unfold p_record_specification. apply Pan_u32; [exact L|rewrite HP; bound|]. intros L2. apply Pan_bind_ret.
  unfold Pan. rewrite sets_panic by (apply bytes_skip; exact B). rewrite HP. split; [intros X; split; [lia|exact X]|intros [_ X]; exact X].
Qed.
Ltac pan := match goal with |- Pan (pbind ?p _) _ _ _ =>
  lazymatch p with
  | p_entity_id => eapply (Pan_skip _ _ 6 _ _ _ Skips_entity_id)
  | p_entity_type => eapply (Pan_skip _ _ 8 _ _ _ Skips_entity_type)
  | p_location => eapply (Pan_skip _ _ 24 _ _ _ Skips_location)
  | p_orientation => eapply (Pan_skip _ _ 12 _ _ _ Skips_orientation)
  | p_vec3_f32 => eapply (Pan_skip _ _ 12 _ _ _ Skips_vec3)
  | p_modulation_type => eapply (Pan_skip _ _ 8 _ _ _ Skips_modulation_type)
  | p_crypto_key_id => eapply (Pan_skip _ _ 2 _ _ _ Skips_crypto)
  | p_aggregate_type => eapply (Pan_skip _ _ 8 _ _ _ Skips_aggregate_type)
  | p_marking 31 => eapply (Pan_skip _ _ 32 _ _ _ Skips_marking31)
  | be_u8 => apply Pan_u8
  | be_u16 => apply Pan_u16
  | be_u32 => apply Pan_u32
  | be_u64 => eapply (Pan_skip _ _ 8 _ _ _ (Skips_be 8))
  | be_f32 => eapply (Pan_skip _ _ 4 _ _ _ (Skips_be 4))
  end; [lia|bound|cbn [Nat.add]; let L := fresh "L" in intros L; try intros ?] end.
Lemma transfer_panic i : bytes i -> 12 <= zlen i -> (p_transfer_ownership_body Checked (skipn 12 i) = PPanic <-> 40 <= zlen i /\ huge_set (u32_at i 36) (skipn 40 i)).
Proof.
  intros B L0. match goal with |- ?p _ = _ <-> ?P => change (Pan p 12 i P) end. unfold p_transfer_ownership_body.
  repeat pan. apply Pan_bind_ret. apply recspec_panic; [exact B|lia|]. cbn [Nat.add]. split; intros (? & ?); split; try lia; assumption.
Qed.
Lemma record_r_panic i : bytes i -> 12 <= zlen i -> (p_record_r_body Checked (skipn 12 i) = PPanic <-> 42 <= zlen i /\ huge_set (u32_at i 38) (skipn 42 i)).
Proof.
  intros B L0. match goal with |- ?p _ = _ <-> ?P => change (Pan p 12 i P) end. unfold p_record_r_body.
  repeat pan. apply Pan_bind_ret. apply recspec_panic; [exact B|lia|]. cbn [Nat.add]. split; intros (? & ?); split; try lia; assumption.
Qed.
Lemma set_record_r_panic i : bytes i -> 12 <= zlen i -> (p_set_record_r_body Checked (skipn 12 i) = PPanic <-> 40 <= zlen i /\ huge_set (u32_at i 36) (skipn 40 i)).
Proof.
  intros B L0. match goal with |- ?p _ = _ <-> ?P => change (Pan p 12 i P) end. unfold p_set_record_r_body.
  repeat pan. apply Pan_bind_ret. apply recspec_panic; [exact B|lia|]. cbn [Nat.add]. split; intros (? & ?); split; try lia; assumption.
Qed.
Lemma count_len {A} (p : bparser A) n : forall i r l, count_nat p n i = POk r l -> zlen l = Z.of_nat n.
Proof.
  induction n as [|n IH]; intros i r l; cbn [count_nat]; unfold pbind, pret.
  - intros E; injection E as _ <-. reflexivity.
  - destruct (p i) as [r1 a|k|]; try discriminate. destruct (count_nat p n r1) as [r2 l2|k|] eqn:E; try discriminate. intros X; injection X as _ <-.
    rewrite zlen_cons, (IH _ _ _ E). lia.
Qed.
Lemma Pan_ids {B} (q : list EntityId -> bparser B) n k i (P : Prop) : 0 <= n -> Z.of_nat k <= zlen i -> (P -> Z.of_nat k + 6 * n <= zlen i) ->
  (Z.of_nat k + 6 * n <= zlen i -> forall l, zlen l = n -> Pan (q l) (k + Z.to_nat (6 * n)) i P) -> Pan (pbind (count p_entity_id n) q) k i P.
Proof.
  intros Hn Hk HP Hq. unfold Pan, pbind, count. destruct (Skips_count _ 6 (Z.to_nat n) Skips_entity_id (skipn k i)) as [S1 S2]. rewrite zlen_skip in S1, S2.
  destruct (Z_lt_ge_dec (zlen i) (Z.of_nat k + 6 * n)) as [L|L].
  - rewrite S1 by lia. split; [discriminate|]. intros X. specialize (HP X). lia.
  - destruct S2 as [l E]; [lia|]. rewrite E. pose proof (count_len _ _ _ _ _ E). rewrite skip_skip.
    replace (k + Z.to_nat n * 6)%nat with (k + Z.to_nat (6 * n))%nat by lia. apply Hq; lia.
Qed.
Lemma sum6 l : forall acc, 0 <= acc -> @wsum EntityId Checked (fun _ => wret 6) l acc = if acc + 6 * zlen l <? 65536 then WOk [] (acc + 6 * zlen l) else if l then WOk [] acc else WPanic.
Proof.
  induction l as [|x l IH]; intros acc Ha; cbn [wsum].
  - change (zlen (@nil EntityId)) with 0. replace (acc + 6 * 0) with acc by lia. destruct (acc <? 65536); reflexivity.
  - rewrite zlen_cons. pose proof (zlen_nonneg l). unfold wbind at 1, wret at 1. unfold add16, arith. destruct (Z.leb_spec 0 (acc + 6)); [|lia]. cbn [andb].
    destruct (Z.ltb_spec (acc + 6) 65536) as [L|L].
    + unfold wbind, wret. rewrite IH by lia. replace (acc + 6 + 6 * zlen l) with (acc + 6 * (1 + zlen l)) by lia. destruct (Z.ltb_spec (acc + 6 * (1 + zlen l)) 65536) as [L2|L2]; [reflexivity|].
      destruct l as [|y l]; [|reflexivity]. change (zlen (@nil EntityId)) with 0 in L2. lia.
    + destruct (Z.ltb_spec (acc + 6 * (1 + zlen l)) 65536) as [L2|L2]; [lia|]. reflexivity.
Qed.
Lemma agg_checked a b : let k := 124 + 6 * (zlen a + zlen b) in
  (65536 <= k -> agg_intermediate Checked a b = WPanic) /\ (k < 65536 -> exists u v, agg_intermediate Checked a b = WOk [] (u, v) /\ 0 <= v).
Proof.
  cbv zeta. pose proof (zlen_nonneg a). pose proof (zlen_nonneg b). unfold agg_intermediate, wmap_sum. rewrite !sum6 by lia. unfold wbind, add16, arith, wret.
  assert (HN : forall l : list EntityId, 0 + 6 * zlen l >= 65536 -> l <> []) by (intros l X ->; revert X; unfold zlen; cbn [length]; lia).
  destruct (Z.ltb_spec (0 + 6 * zlen a) 65536) as [La|La].
  2: { destruct a; [exfalso; apply (HN []); [lia|reflexivity]|]. split; [reflexivity|lia]. }
  destruct (Z.leb_spec 0 (124 + (0 + 6 * zlen a))); [|lia]. cbn [andb].
  destruct (Z.ltb_spec (124 + (0 + 6 * zlen a)) 65536) as [La2|La2]; [|split; [reflexivity|lia]].
  destruct (Z.ltb_spec (0 + 6 * zlen b) 65536) as [Lb|Lb].
  2: { destruct b; [exfalso; apply (HN []); [lia|reflexivity]|]. split; [reflexivity|lia]. }
  set (t := 124 + (0 + 6 * zlen a) + (0 + 6 * zlen b)) in *.
  destruct (Z.leb_spec 0 t); [|lia]. cbn [andb]. destruct (Z.ltb_spec t 65536) as [Lt|Lt]; [|split; [reflexivity|lia]].
  pose proof (Z.mod_pos_bound t 4 ltac:(lia)). destruct (Z.leb_spec 0 (t + t mod 4)); [|lia]. cbn [andb].
  assert (t + t mod 4 < 65536).
  { unfold t in *. replace (124 + (0 + 6 * zlen a) + (0 + 6 * zlen b)) with (2 * (62 + 3 * (zlen a + zlen b))) in * by lia.
    assert (2 * (62 + 3 * (zlen a + zlen b)) <= 65530) by lia. lia. }
  destruct (Z.ltb_spec (t + t mod 4) 65536); [|lia]. split; [lia|]. intros _. cbn [app]. do 2 eexists. split; [reflexivity|]. lia.
Qed.
Lemma aggregate_panic i : bytes i -> 12 <= zlen i -> (p_aggregate_state_body Checked (skipn 12 i) = PPanic <->
  132 + 6 * (u16_at i 124 + u16_at i 126) <= zlen i /\ 65536 <= 124 + 6 * (u16_at i 124 + u16_at i 126)).
Proof.
  intros B L0. pose proof (u16_at_range i 124 B) as R1. pose proof (u16_at_range i 126 B) as R2.
  match goal with |- ?p _ = _ <-> ?P => change (Pan p 12 i P) end. unfold p_aggregate_state_body.
  repeat pan. apply Pan_ids; [lia|lia|bound|]. intros La la Ea. apply Pan_ids; [lia|lia|bound|]. intros Lb lb Eb.
  destruct (agg_checked la lb) as [C1 C2]. rewrite Ea, Eb in C1, C2. unfold Pan at 1.
  match goal with |- pbind ?p ?q ?i = _ <-> _ => unfold pbind at 1 end. unfold plift at 1.
  destruct (Z_lt_ge_dec (124 + 6 * (u16_at i 124 + u16_at i 126)) 65536) as [Lk|Lk].
  - destruct (C2 Lk) as (u & v & -> & Hv). cbn [snd]. match goal with |- ?p (skipn ?k i) = _ <-> ?P => change (Pan p k i P) end.
    eapply Pan_safe with (Q := fun _ => True); [|exact B|lia]. safe.
  - rewrite C1 by lia. split; [|reflexivity]. intros _. split; lia.
Qed.
Lemma Skips_modparams n : 0 <= n -> Skips (p_modulation_parameters n) (Z.to_nat n).
Proof.
  intros H. unfold p_modulation_parameters. destruct (Z.ltb_spec 0 n) as [L|L].
  - eapply Skips_cast; [apply (Skips_bind _ _ (Z.to_nat n)); [rewrite <- (Z2Nat.id n H) at 1; apply Skips_take|intros a; apply Skips_ret]|lia].
  - replace (Z.to_nat n) with 0%nat by lia. apply Skips_ret.
Qed.
Lemma Skips_pattern n : Skips (p_antenna_pattern n) (Z.to_nat (if 0 <? n then 40 else 0)).
Proof.
  unfold p_antenna_pattern. destruct (0 <? n); [|apply Skips_ret].
  eapply Skips_cast; [eapply Skips_bind; [apply Skips_bap|intros a; apply Skips_ret]|reflexivity].
Qed.
Lemma short_record_pos n i : short_record n i -> 0 < n. Proof. now inversion 1. Qed.
Lemma transmitter_panic i v : bytes i -> 12 <= zlen i -> (p_transmitter_body Checked v (skipn 12 i) = PPanic <->
  let start := 104 + nth 100 i 0 + (if 0 <? u16_at i 70 then 40 else 0) in
  v = 7 /\ start <= zlen i /\ short_record (u16_at i 30) (skipn (Z.to_nat start) i)).
Proof.
  intros B L0. cbv zeta. pose proof (byte_at i 100 B) as R1. pose proof (Skips_pattern (u16_at i 70)) as SP. set (pat := if 0 <? u16_at i 70 then 40 else 0) in *.
  assert (Hp : 0 <= pat) by (unfold pat; destruct (0 <? _); lia).
  match goal with |- ?p _ = _ <-> ?P => change (Pan p 12 i P) end. unfold p_transmitter_body.
  repeat pan.
  eapply Pan_skip; [apply Skips_modparams; lia|lia|bound|]. intros LL mp.
  eapply Pan_skip; [exact SP|lia|bound|]. intros LM ap. apply Pan_bind_ret.
  replace (104 + Z.to_nat (nth 100 i 0%Z) + Z.to_nat pat)%nat with (Z.to_nat (104 + nth 100 i 0 + pat)) in * by lia.
  unfold Pan. rewrite vtps_panic by (apply bytes_skip; exact B).
  destruct (Z.eqb_spec v 7) as [E|E].
  - split; [intros X; split; [exact E|split; [lia|exact X]]|tauto].
  - split; [intros X; apply short_record_pos in X; lia|tauto].
Qed.
Lemma header_version i r h : p_header i = POk r h -> h_version h = nth 0 i 0.
Proof.
  intros H. destruct (p_header_consumes _ _ _ H) as [-> L].
  do 12 (destruct i as [|? i]; [exfalso; unfold zlen in L; cbn [length] in L; pose proof (Nat2Z.is_nonneg 0); cbn [skipn] in L; cbn [length Z.of_nat] in L; lia|]).
  clear L. unfold p_header in H. unfold be_u8, be_u16, be_u32, be_u, pbind, pret in H. cbn [length Nat.ltb Nat.leb skipn firstn] in H.
  match type of H with match ?x with _ => _ end = _ => destruct x eqn:E; try discriminate end.
  injection H as _ <-. reflexivity.
Qed.
Lemma pmap_panic {A B} (f : A -> B) (p : bparser A) i : pmap f p i = PPanic <-> p i = PPanic.
Proof. unfold pmap, pbind, pret. destruct (p i); split; intros X; try discriminate X; reflexivity. Qed.
Lemma signal_type_not_others i : nth 2 i 0 = 26 -> overflowing_pdu i -> short_signal i.
Proof.
  intros T [X|[X|[X|X]]]; [exact X| | |]; exfalso.
  - destruct X as [X _]. lia.
  - destruct X as [[[X|X] _]|[X _]]; lia.
  - destruct X as [X _]. lia.
Qed.
Lemma pdu_panic_checked i : bytes i -> (p_pdu Checked i = PPanic <-> overflowing_pdu i).
Proof.
  intros B. split.
  - intros H. destruct (pdu_panic_any _ _ B H) as (h & r & E & T). pose proof (header_version _ _ _ E) as EV. destruct (header_octet _ _ _ E) as [-> ET]. destruct (p_header_consumes _ _ _ E) as [_ L].
    pose proof (zlen_nonneg (skipn 12 i)). unfold p_pdu, pbind in H. rewrite E in H.
    assert (H' : p_body Checked h (skipn 12 i) = PPanic) by (destruct (p_body Checked h (skipn 12 i)); try discriminate H; reflexivity). clear H.
    unfold p_body in H'. cbv zeta in H'. unfold overflowing_pdu. unfold arithmetic_types in T. cbn [In] in T.
    destruct T as [T|[T|[T|[T|[T|[T|[]]]]]]]; rewrite <- T in H'; cbn [Z.eqb Pos.eqb] in H'; apply pmap_panic in H'; rewrite ET in T.
    + right; left. apply transmitter_panic in H'; [|exact B|lia]. cbv zeta in H'. rewrite EV in H'. unfold short_transmitter. cbv zeta. rewrite <- T. split; [reflexivity|exact H'].
    + left. apply (short_signal_spec _ _ _ B E). split; [congruence|]. apply signal_panic; [apply bytes_skip; exact B|exact H'].
    + right; right; right. apply aggregate_panic in H'; [|exact B|lia]. unfold huge_aggregate. cbv zeta. rewrite <- T. split; [reflexivity|exact H'].
    + right; right; left. apply transfer_panic in H'; [|exact B|lia]. left. rewrite <- T. split; [left; reflexivity|exact H'].
    + right; right; left. apply record_r_panic in H'; [|exact B|lia]. right. rewrite <- T. split; [reflexivity|exact H'].
    + right; right; left. apply set_record_r_panic in H'; [|exact B|lia]. left. rewrite <- T. split; [right; reflexivity|exact H'].
  - intros H. destruct (Z.eq_dec (nth 2 i 0) 26) as [T|T]; [apply short_signal_panic; [exact B|now apply signal_type_not_others]|].
    assert (L : 12 <= zlen i).
    { destruct H as [X|[X|[X|X]]].
      - destruct X as [X _]. contradiction.
      - destruct X as (_ & _ & X & _). pose proof (byte_at i 100 B). destruct (0 <? _) in X; lia.
      - destruct X as [(_ & X & _)|(_ & X & _)]; lia.
      - destruct X as (_ & X & _). pose proof (u16_at_range i 124 B). pose proof (u16_at_range i 126 B). lia. }
    destruct (p_header_long i L) as [h E]. pose proof (header_version _ _ _ E) as EV. destruct (header_octet _ _ _ E) as [_ ET].
    unfold p_pdu, pbind. rewrite E. enough (X : p_body Checked h (skipn 12 i) = PPanic) by (now rewrite X).
    unfold p_body. cbv zeta. destruct H as [X|[X|[X|X]]].
    + destruct X as [X _]. contradiction.
    + destruct X as [X1 X2]. rewrite ET, X1. cbn [Z.eqb Pos.eqb]. apply pmap_panic. apply transmitter_panic; [exact B|exact L|]. cbv zeta. rewrite EV. exact X2.
    + destruct X as [[[X1|X1] X2]|[X1 X2]]; rewrite ET, X1; cbn [Z.eqb Pos.eqb]; apply pmap_panic.
      * apply transfer_panic; assumption.
      * apply set_record_r_panic; assumption.
      * apply record_r_panic; assumption.
    + destruct X as [X1 X2]. rewrite ET, X1. cbn [Z.eqb Pos.eqb]. apply pmap_panic. apply aggregate_panic; assumption.
Qed.

Lemma checked_example : forall body, bytes body -> zlen body = 65536 ->
  overflowing_pdu ([7; 1; 35; 7] ++ zeros 32 ++ [0; 0; 0; 1] ++ zeros 12 ++ [255; 255; 0; 8] ++ body) /\
  overflowing_pdu (sample_packet 25 (zeros 18 ++ [0; 1] ++ zeros 72 ++ zeros 8)).
Proof.
  intros body B L. split.
  - right; right; left. left. split; [left; reflexivity|]. unfold zeros. cbn [repeat app]. split; [rewrite !zlen_cons; pose proof (zlen_nonneg body); lia|].
    cbn [skipn]. apply huge_set_here.
    + vm_compute. reflexivity.
    + unfold record_octets, u16_at. cbn [nth]. rewrite !zlen_cons. change ((255 * 256 + 255 + 7) / 8) with 8192. lia.
    + unfold record_octets, u16_at. cbn [nth]. vm_compute. discriminate.
  - right; left. unfold short_transmitter. cbv zeta. split; [reflexivity|]. split; [reflexivity|]. split; [vm_compute; discriminate|].
    apply short_record_here; vm_compute; (reflexivity || discriminate).
Qed.
(*@C12
In a build with overflow checks parsing any octets ends with a result or an error, except that it panics if and only if, after some PDUs have been read, the rest of the
octets starts with one of these: the short Signal of the other theorem; a Transmitter of version 7 in which a variable transmitter parameter record announces fewer than the
six octets of its own header; a Transfer Ownership, Record-R or Set Record-R with a record set whose records, all present, take 65536 octets or more; or an Aggregate State
whose identifiers, all present, take the body beyond 65535 octets. *)
Lemma C12_checked_panics_iff_pf : forall i, bytes i ->
  (parse Checked i = ParsePanic <-> exists l rest, Reads (p_pdu Checked) i l rest /\ overflowing_pdu rest).
Proof.
  intros i Hi. rewrite parse_panic_iff, SplitPanic_Reads. split; intros (l & rest & R & H); exists l, rest; (split; [exact R|]);
    pose proof (Reads_bytes _ _ _ _ (Ext_pdu Checked) Hi R) as B; apply (pdu_panic_checked rest B); exact H.
Qed.
(*@ex*)
Example C12_checked_example : forall body, bytes body -> zlen body = 65536 ->
  overflowing_pdu ([7; 1; 35; 7] ++ zeros 32 ++ [0; 0; 0; 1] ++ zeros 12 ++ [255; 255; 0; 8] ++ body) /\
  overflowing_pdu (sample_packet 25 (zeros 18 ++ [0; 1] ++ zeros 72 ++ zeros 8)).
Proof. exact checked_example. Qed.
Lemma huge_set_long n i : huge_set n i -> 65536 <= zlen i.
Proof. induction 1 as [n i H1 H2 H3|n i H1 H2 H3 H4 IH]; [lia|]. rewrite zlen_skip in IH. lia. Qed.
Lemma Reads_shrinks {A} (p : bparser A) i l rest : Ext p -> Reads p i l rest -> zlen rest <= zlen i.
Proof.
  intros X R. induction R as [|i r a l rest H R IH]; [lia|]. destruct (X _ _ _ H) as [[c ->] _]. unfold zlen in *. rewrite app_length. lia.
Qed.
(*@C12
For octets that fit one UDP datagram, or anything else below 65536 octets, only the short Signal and the Transmitter record with a length below six remain. *)
Lemma C12_datagram_panics_iff_pf : forall i, bytes i -> zlen i < 65536 ->
  (parse Checked i = ParsePanic <-> exists l rest, Reads (p_pdu Checked) i l rest /\ (short_signal rest \/ short_transmitter rest)).
Proof.
  intros i B L. rewrite C12_checked_panics_iff_pf by exact B. unfold overflowing_pdu. split; intros (l & rest & R & H); exists l, rest; (split; [exact R|]); [|tauto].
  pose proof (Reads_shrinks _ _ _ _ (Ext_pdu Checked) R) as LR. destruct H as [X|[X|[X|X]]]; [tauto|tauto| |]; exfalso.
  - destruct X as [(_ & _ & X)|(_ & _ & X)]; apply huge_set_long in X; rewrite zlen_skip in X; lia.
  - destruct X as (_ & X & Y). lia.
Qed.

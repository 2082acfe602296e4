(** * Lemmas for the C-DIS bit-level properties C23-C25 *)
From Coq Require Import ZArith List Lia Bool.
From Verif Require Import Base CdisBase CdisBodies1 CdisBodies2 SpecCdis.
Import ListNotations. Open Scope Z_scope.

Lemma zlen_firstn {A} n (l : list A) : 0 <= n <= zlen l -> zlen (firstn (Z.to_nat n) l) = n.
Proof. unfold zlen. intros H. rewrite firstn_length. lia. Qed.
Lemma zlen_skipn {A} n (l : list A) : 0 <= n <= zlen l -> zlen (skipn (Z.to_nat n) l) = zlen l - n.
Proof. unfold zlen. intros H. rewrite skipn_length. lia. Qed.
Lemma nth_error_skipn {A} n (l : list A) i : nth_error (skipn n l) i = nth_error l (n + i).
Proof. revert l. induction n as [|n IH]; intros l; [reflexivity|]. destruct l; [now destruct i|apply IH]. Qed.
Lemma skipn_skipn_add {A} a b (l : list A) : skipn a (skipn b l) = skipn (b + a) l.
Proof. revert l. induction b as [|b IH]; intros l; [reflexivity|]. destruct l; [now rewrite skipn_nil|apply IH]. Qed.

Lemma splice_ok buf cursor bs : 0 <= cursor -> cursor + zlen bs <= zlen buf ->
  exists buf', splice buf cursor bs = Some buf' /\ unchanged_outside buf buf' cursor (zlen bs) /\
    from buf' cursor = bs ++ from buf' (cursor + zlen bs).
Proof.
  intros Hc Hl. pose proof (zlen_nonneg bs) as Hb. unfold splice.
  replace (0 <=? cursor) with true by lia. replace (cursor + zlen bs <=? zlen buf) with true by lia. cbn [andb].
  set (a := firstn (Z.to_nat cursor) buf). set (c := skipn (Z.to_nat (cursor + zlen bs)) buf).
  assert (Ha : length a = Z.to_nat cursor) by (unfold a; rewrite firstn_length; unfold zlen in *; lia).
  assert (Hbl : length bs = Z.to_nat (zlen bs)) by (unfold zlen; lia).
  exists (a ++ bs ++ c). split; [reflexivity|]. split; [split|].
  - rewrite !zlen_app. unfold a, c. rewrite zlen_firstn, zlen_skipn by lia. lia.
  - intros i Hi Ho. unfold bit_at. destruct Ho as [Ho|Ho].
    + rewrite nth_error_app1 by lia. unfold a. rewrite <- (firstn_skipn (Z.to_nat cursor) buf) at 2. symmetry. apply nth_error_app1. unfold a in Ha; lia.
    + rewrite nth_error_app2, nth_error_app2 by lia. rewrite Ha, Hbl. unfold c. rewrite nth_error_skipn. f_equal. lia.
  - unfold from. rewrite skipn_app, Ha, Nat.sub_diag, skipn_all2 by lia. cbn [skipn app]. f_equal.
    rewrite skipn_app, (skipn_all2 a) by lia. cbn [app]. rewrite skipn_app, skipn_all2 by lia. cbn [app]. rewrite Ha, Hbl.
    replace (_ - _ - _)%nat with 0%nat by lia. reflexivity.
Qed.
Lemma splice_fail buf cursor bs : zlen buf < cursor + zlen bs -> splice buf cursor bs = None.
Proof. intros H. unfold splice. replace (cursor + zlen bs <=? zlen buf) with false by lia. now rewrite andb_false_r. Qed.
Lemma BLen_writes w n : BLen w n -> writes_bits w n.
Proof.
  intros (bs & -> & <-) buf cursor Hc. unfold run_at. split; intros Hl.
  - destruct (splice_ok buf cursor bs Hc Hl) as (b & -> & H & _). eauto.
  - now rewrite splice_fail.
Qed.
Lemma BRT_reads {A} w (p : bitparser A) x n : BRT w p x n -> reads_back w p x n.
Proof.
  intros (bs & -> & <- & Hp) buf cursor Hc Hl. unfold run_at. destruct (splice_ok buf cursor bs Hc Hl) as (b & -> & H & Hf).
  exists b. split; [reflexivity|]. split; [exact H|]. rewrite Hf at 1. apply Hp.
Qed.
Lemma BRT_writes {A} w (p : bitparser A) x n : BRT w p x n -> writes_bits w n.
Proof. intros H. eapply BLen_writes, BLen_of, H. Qed.

(** ** C23 *)
(*@C23
   A u8 written as UVINT8 is read back as the same value from any cursor of any buffer, and the bits written are the one-bit size flag and the
   smaller of 4 and 8 bits that holds the value; that number is the record length the type reports. *)
Lemma uvint8_roundtrip_pf : forall v, 0 <= v <= 255 ->
  reads_back (w_uvint8 v) p_uvint8 v (len_uvint8 v) /\ writes_bits (w_uvint8 v) (len_uvint8 v) /\
  smallest [4; 8] (unsigned_fits v) (len_uvint8 v - 1).
Proof.
  intros v Hv. assert (H : ub 8 v) by (unfold ub; change (2 ^ 8) with 256; lia).
  split; [now apply BRT_reads, BRT_uvint8|]. split; [now eapply BRT_writes, BRT_uvint8|].
  unfold smallest, unsigned_fits, len_uvint8, len_vint, uvint8_class, uvint8_bits. destruct (Z.leb_spec v 15); cbn -[Z.pow];
  (split; [lia|split; [pow_tac; lia|intros k [<- | [<- | []]]; pow_tac; lia]]).
Qed.
(*@C23
   The same for a u16 as UVINT16: a two-bit flag and the smallest of 8, 11, 14 and 16 bits. *)
Lemma uvint16_roundtrip_pf : forall v, 0 <= v <= 65535 ->
  reads_back (w_uvint16 v) p_uvint16 v (len_uvint16 v) /\ writes_bits (w_uvint16 v) (len_uvint16 v) /\
  smallest [8; 11; 14; 16] (unsigned_fits v) (len_uvint16 v - 2).
Proof.
  intros v Hv. assert (H : ub 16 v) by (unfold ub; change (2 ^ 16) with 65536; lia).
  split; [now apply BRT_reads, BRT_uvint16|]. split; [now eapply BRT_writes, BRT_uvint16|].
  unfold smallest, unsigned_fits, len_uvint16, len_vint, uvint16_class, uvint16_bits.
  destruct (Z.leb_spec v 255); [|destruct (Z.leb_spec v 2047); [|destruct (Z.leb_spec v 16383)]]; cbn -[Z.pow];
  (split; [lia|split; [pow_tac; lia|intros k [<- | [<- | [<- | [<- | []]]]]; pow_tac; lia]]).
Qed.
(*@C23
   The same for a u32 as UVINT32: a two-bit flag and the smallest of 8, 15, 18 and 32 bits. *)
Lemma uvint32_roundtrip_pf : forall v, 0 <= v <= 4294967295 ->
  reads_back (w_uvint32 v) p_uvint32 v (len_uvint32 v) /\ writes_bits (w_uvint32 v) (len_uvint32 v) /\
  smallest [8; 15; 18; 32] (unsigned_fits v) (len_uvint32 v - 2).
Proof.
  intros v Hv. assert (H : ub 32 v) by (unfold ub; change (2 ^ 32) with 4294967296; lia).
  split; [now apply BRT_reads, BRT_uvint32|]. split; [now eapply BRT_writes, BRT_uvint32|].
  unfold smallest, unsigned_fits, len_uvint32, len_vint, uvint32_class, uvint32_bits.
  destruct (Z.leb_spec v 255); [|destruct (Z.leb_spec v 32767); [|destruct (Z.leb_spec v 262143)]]; cbn -[Z.pow];
  (split; [lia|split; [pow_tac; lia|intros k [<- | [<- | [<- | [<- | []]]]]; pow_tac; lia]]).
Qed.
(*@ex*)
Example uvint16_example : run_at (w_uvint16 300) (repeat true 20) 3 =
  Some ([true; true; true] ++ [false; true] ++ [false; false; true; false; false; true; false; true; true; false; false] ++ [true; true; true; true], 16).
Proof. reflexivity. Qed.

(** ** C24 *)
Lemma svint_smallest c0 c1 c2 c3 v n (sizes := [c0; c1; c2; c3]) : 1 <= c0 -> c0 < c1 -> c1 < c2 -> c2 < c3 ->
  (n = c0 /\ signed_fits v c0 \/ n = c1 /\ signed_fits v c1 /\ ~ signed_fits v c0 \/ n = c2 /\ signed_fits v c2 /\ ~ signed_fits v c1 \/
   n = c3 /\ signed_fits v c3 /\ ~ signed_fits v c2) -> smallest sizes (signed_fits v) n.
Proof.
  intros H0 H1 H2 H3 H. assert (mono : forall a b, 1 <= a <= b -> signed_fits v a -> signed_fits v b).
  { intros a b Hab. unfold signed_fits. pose proof (Z.pow_le_mono_r 2 (a - 1) (b - 1) ltac:(lia) ltac:(lia)). lia. }
  unfold smallest. subst sizes. cbn [In]. split; [|split].
  - intuition lia.
  - intuition (subst; auto).
  - intros k Hk Hf.
    assert (A0 : signed_fits v c0 -> signed_fits v c1) by (apply mono; lia).
    assert (A1 : signed_fits v c1 -> signed_fits v c2) by (apply mono; lia).
    destruct Hk as [<- | [<- | [<- | [<- | []]]]]; destruct H as [[-> ?] | [[-> [? ?]] | [[-> [? ?]] | [-> [? ?]]]]]; try lia; tauto.
Qed.
Ltac sv E := unfold E, len_vint; repeat match goal with |- context [in_rng ?a ?b ?v] => destruct (in_rng_spec a b v) end; cbn -[Z.pow]; unfold signed_fits; pow_tac; lia.
(*@C24
   A value of 12-bit two's complement range written as SVINT12 is read back from any cursor; the bits written are a two-bit flag and the
   smallest of 3, 6, 9 and 12 bits that holds the value, in checked and in wrapping arithmetic. *)
Lemma svint12_roundtrip_pf : forall m v, -2048 <= v <= 2047 ->
  reads_back (w_svint12 m v) p_svint12 v (len_svint12 v) /\ writes_bits (w_svint12 m v) (len_svint12 v) /\
  smallest [3; 6; 9; 12] (signed_fits v) (len_svint12 v - 2).
Proof.
  intros m v Hv. assert (H : sb 12 v) by (unfold sb; change (2 ^ (12 - 1)) with 2048; lia).
  split; [now apply BRT_reads, BRT_svint12|]. split; [now eapply BRT_writes, BRT_svint12|].
  apply svint_smallest; try lia. unfold svint12_class. unfold len_svint12, len_vint, svint12_class, svint12_bits. sv len_svint12.
Qed.
(*@C24
   SVINT13: sizes 5, 7, 10 and 13. *)
Lemma svint13_roundtrip_pf : forall m v, -4096 <= v <= 4095 ->
  reads_back (w_svint13 m v) p_svint13 v (len_svint13 v) /\ writes_bits (w_svint13 m v) (len_svint13 v) /\
  smallest [5; 7; 10; 13] (signed_fits v) (len_svint13 v - 2).
Proof.
  intros m v Hv. assert (H : sb 13 v) by (unfold sb; change (2 ^ (13 - 1)) with 4096; lia).
  split; [now apply BRT_reads, BRT_svint13|]. split; [now eapply BRT_writes, BRT_svint13|].
  apply svint_smallest; try lia. unfold len_svint13, len_vint, svint13_class, svint13_bits. sv len_svint13.
Qed.
(*@C24
   SVINT14: sizes 4, 7, 9 and 14. *)
Lemma svint14_roundtrip_pf : forall m v, -8192 <= v <= 8191 ->
  reads_back (w_svint14 m v) p_svint14 v (len_svint14 v) /\ writes_bits (w_svint14 m v) (len_svint14 v) /\
  smallest [4; 7; 9; 14] (signed_fits v) (len_svint14 v - 2).
Proof.
  intros m v Hv. assert (H : sb 14 v) by (unfold sb; change (2 ^ (14 - 1)) with 8192; lia).
  split; [now apply BRT_reads, BRT_svint14|]. split; [now eapply BRT_writes, BRT_svint14|].
  apply svint_smallest; try lia. unfold len_svint14, len_vint, svint14_class, svint14_bits. sv len_svint14.
Qed.
(*@C24
   SVINT16: sizes 8, 12, 13 and 16. *)
Lemma svint16_roundtrip_pf : forall m v, -32768 <= v <= 32767 ->
  reads_back (w_svint16 m v) p_svint16 v (len_svint16 v) /\ writes_bits (w_svint16 m v) (len_svint16 v) /\
  smallest [8; 12; 13; 16] (signed_fits v) (len_svint16 v - 2).
Proof.
  intros m v Hv. assert (H : sb 16 v) by (unfold sb; change (2 ^ (16 - 1)) with 32768; lia).
  split; [now apply BRT_reads, BRT_svint16|]. split; [now eapply BRT_writes, BRT_svint16|].
  apply svint_smallest; try lia. unfold len_svint16, len_vint, svint16_class, svint16_bits. sv len_svint16.
Qed.
(*@C24
   SVINT24: sizes 16, 19, 21 and 24. Every value keeps its size, and every value from -1048576 on is read back; what the others become is the
   next theorem. *)
Lemma svint24_roundtrip_pf : forall m v, -8388608 <= v <= 8388607 ->
  (-1048576 <= v -> reads_back (w_svint24 m v) p_svint24 v (len_svint24 v)) /\ writes_bits (w_svint24 m v) (len_svint24 v) /\
  smallest [16; 19; 21; 24] (signed_fits v) (len_svint24 v - 2).
Proof.
  intros m v Hv. assert (H : sb 24 v) by (unfold sb; change (2 ^ (24 - 1)) with 8388608; lia).
  split; [|split; [now eapply BRT_writes, BRT_svint24|]].
  - intros Hr. apply BRT_reads. eapply BRT_conv; [now apply BRT_svint24| |reflexivity]. unfold img24. now replace (v <? -1048576) with false by lia.
  - apply svint_smallest; try lia. unfold len_svint24, len_vint, svint24_class, svint24_bits. sv len_svint24.
Qed.
(*@C24
   The full claim fails for SVINT24: every value below -1048576 is read back as a positive number, 2^24 too large (the minimum of the 24-bit size
   lacks its sign). *)
Lemma svint24_roundtrip_refuted_pf : forall m v, -8388608 <= v < -1048576 ->
  reads_back (w_svint24 m v) p_svint24 (v + 16777216) (len_svint24 v).
Proof.
  intros m v Hv. assert (H : sb 24 v) by (unfold sb; change (2 ^ (24 - 1)) with 8388608; lia).
  apply BRT_reads. eapply BRT_conv; [now apply BRT_svint24| |reflexivity]. unfold img24. now replace (v <? -1048576) with true by lia.
Qed.
(*@ex*)
Example svint12_example : run_at (w_svint12 Checked (-5)) (repeat false 9) 1 = Some ([false] ++ [false; true] ++ [true; true; true; false; true; true], 9).
Proof. reflexivity. Qed.

(** ** C25 *)
(*@C25
   An unsigned field: for every width n from 1 to the width ty of its Rust type, every cursor and every buffer with room, writing stores exactly
   the n low bits and nothing else, advances the cursor by n, and reading n bits there returns the value modulo 2^n: the value itself when it
   fits. *)
Lemma unsigned_field_pf : forall ty n v, 1 <= n <= ty -> 0 <= v ->
  writes_bits (bput ty n v) n /\ reads_back (bput ty n v) (btake n) (v mod 2 ^ n) n /\
  (unsigned_fits v n -> reads_back (bput ty n v) (btake n) v n).
Proof.
  intros ty n v Hn Hv. pose proof (BRT_put_mod ty n v Hn) as H. split; [exact (BRT_writes _ _ _ _ H)|]. split; [now apply BRT_reads|].
  intros Hf. apply BRT_reads, BRT_put; assumption.
Qed.
(*@C25
   A signed field of n bits, n even or at least two less than the width of its Rust type (all the widths in use): the same, with the value's
   two's complement pattern on the wire; neither mode of integer arithmetic panics. *)
Lemma signed_field_pf : forall m ty n v, 2 <= n <= ty -> n + 2 <= ty \/ Z.even n = true -> signed_fits v n ->
  writes_bits (bput_s m ty n v) n /\ reads_back (bput_s m ty n v) (btake_s n) v n /\
  reads_back (bput_s m ty n v) (btake n) (twos_complement v n) n.
Proof.
  intros m ty n v Hn Hw Hf.
  assert (H : BRT (bput_s m ty n v) (btake_s n) v n) by (apply BRT_put_s; [assumption|tauto|assumption]).
  split; [exact (BRT_writes _ _ _ _ H)|]. split; [now apply BRT_reads|].
  apply BRT_reads. rewrite bput_s_bits by (try assumption; tauto). unfold twos_complement.
  assert (Hp : 2 ^ n = 2 * 2 ^ (n - 1)) by (replace n with (Z.succ (n - 1)) at 1 by lia; apply Z.pow_succ_r; lia).
  unfold signed_fits in Hf.
  eexists. split; [reflexivity|]. split.
  { rewrite ?zlen_app, ?zlen_cons, ?ubits_zlen by lia. lia. }
  intros rest. rewrite btake_app.
  2: { rewrite ?zlen_app, ?zlen_cons, ?ubits_zlen by lia. lia. }
  f_equal. rewrite ?uval_cons, ?uval_app, ?uval_ubits, ?ubits_zlen by lia.
  destruct (Z.ltb_spec v 0); cbn [Z.b2z].
  all: rewrite ?Z.mod_small by lia; lia.
Qed.
(*@C25
   A width of zero or beyond the Rust type is refused by a panic, whatever the buffer. *)
Lemma bad_width_panics_pf : forall ty n v buf cursor, n < 1 \/ ty < n -> run_at (bput ty n v) buf cursor = None.
Proof. intros ty n v buf cursor H. unfold bput. destruct (Z.leb_spec 1 n), (Z.leb_spec n ty); cbn [andb]; try reflexivity; lia. Qed.
(*@C25
   Two fields one after the other, at any cursor: both are read back in order (the second does not disturb the first). *)
Lemma adjacent_fields_pf : forall ty1 n1 v1 ty2 n2 v2, 1 <= n1 <= ty1 -> 1 <= n2 <= ty2 -> unsigned_fits v1 n1 -> unsigned_fits v2 n2 ->
  reads_back (bput ty1 n1 v1;; bput ty2 n2 v2)%write (a <- btake n1;; b <- btake n2;; pret (a, b))%parse (v1, v2) (n1 + n2).
Proof.
  intros. apply BRT_reads. eapply BRT_bind; [now apply BRT_put|cbv beta].
  eapply BRT_end; [apply BRT_put; assumption|reflexivity].
Qed.
(*@ex*)
Example signed_field_example : run_at (bput_s Checked 16 13 (-7)) (repeat false 16) 2 =
  Some ([false; false] ++ [true; true; true; true; true; true; true; true; true; true; false; false; true] ++ [false], 15).
Proof. reflexivity. Qed.

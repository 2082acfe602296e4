(** * Generated enumerations and bitfields *)
From Coq Require Import ZArith List Lia Bool.
From Verif Require Import Base EnumGen.
Import ListNotations. Open Scope Z_scope.

(*@C01
For every table without cross-referenced rows, whatever its values and even if rows overlap or exceed the width of the
field, every raw value of the field is decoded and encodes to itself. *)
Lemma C01_lossless_pf : forall size items v, distinct_names items -> no_crossref items -> to_raw size items (from_raw size items v) = v.
Proof.
  intros size items v Hd Hx.
  destruct (from_raw_cases size items v) as [(n & k & Hi & E & ->)|[(n & lo & hi & Hi & E & ->)|[(n & k & d & Hi & _)| ->]]].
  - rewrite (to_raw_basic size items n k Hd Hi). symmetry. exact E.
  - reflexivity.
  - destruct (Hx _ _ _ Hi).
  - reflexivity.
Qed.
(*@C01
With cross-referenced rows, exactly the raw values not taken by such a row survive: a value decoded into a cross-referenced variant is
encoded as the default of the contained record. *)
Lemma C01_crossref_rows_pf : forall size items v, distinct_names items ->
  (exists n d, from_raw size items v = VCrossRef n d /\ to_raw size items (from_raw size items v) = d) \/
  to_raw size items (from_raw size items v) = v.
Proof.
  intros size items v Hd.
  destruct (from_raw_cases size items v) as [(n & k & Hi & E & ->)|[(n & lo & hi & Hi & E & ->)|[(n & k & d & Hi & E & ->)| ->]]].
  - right. rewrite (to_raw_basic size items n k Hd Hi). symmetry. exact E.
  - right. reflexivity.
  - left. exists n, d. split; reflexivity.
  - right. reflexivity.
Qed.
(*@C01
Refutation for cross-referenced rows: a table with one such row changes the raw value of that row. *)
Lemma C01_crossref_refuted_pf : exists items v, distinct_names items /\ to_raw 8 items (from_raw 8 items v) <> v.
Proof. exists [CrossRef 1 3 0], 3. split; [repeat constructor; cbn; tauto|vm_compute; discriminate]. Qed.
(*@ex*)
Example C01_ex : let items := [Basic 10 0; Basic 11 1; Range 12 20 30; Basic 13 255] in distinct_names items /\ no_crossref items /\
  from_raw 8 items 25 = VRange 12 25 /\ from_raw 8 items 255 = VBasic 13 /\ from_raw 8 items 77 = Unspecified 77.
Proof.
  cbv zeta. split; [unfold distinct_names; cbn; repeat constructor; cbn; intuition discriminate|].
  split; [intros n k d H; cbn in H; intuition discriminate|]. repeat split; reflexivity.
Qed.

(** two rows never cover the same raw value *)
Definition non_overlapping (size : Z) (items : list Item) : Prop :=
  forall i j v, In i items -> In j items -> covers size i v -> covers size j v -> i = j.
(*@C02
For every non-overlapping table without cross-references: a value obtained from the wire is the identical value after being written and read. *)
Lemma C02_decoded_values_stable_pf : forall size items v, distinct_names items -> no_crossref items ->
  from_raw size items (to_raw size items (from_raw size items v)) = from_raw size items v.
Proof. intros size items v Hd Hx. now rewrite C01_lossless_pf. Qed.
(*@C02
And every value a program can name: each literal row, each range row with a value of its range, and [Unspecified] with a value no row
covers survive the wire. *)
Lemma C02_named_values_survive_pf : forall size items, distinct_names items -> non_overlapping size items ->
  (forall n k, In (Basic n k) items -> from_raw size items (to_raw size items (VBasic n)) = VBasic n) /\
  (forall n lo hi v, In (Range n lo hi) items -> literal size lo <= v <= literal size hi -> from_raw size items (to_raw size items (VRange n v)) = VRange n v) /\
  (forall v, (forall i, In i items -> ~ covers size i v) -> from_raw size items (to_raw size items (Unspecified v)) = Unspecified v).
Proof.
  intros size items Hd Hn. split; [|split].
  - intros n k Hi. rewrite (to_raw_basic size items n k Hd Hi).
    apply (from_raw_first size items (literal size k) (Basic n k)); [|exact Hi|reflexivity]. intros j Hj Hc. symmetry. eapply Hn; eauto. reflexivity.
  - intros n lo hi v Hi Hv. change (to_raw size items (VRange n v)) with v. destruct items as [|i0 items]; [destruct Hi|].
    apply (from_raw_first size (i0 :: items) v (Range n lo hi)); [|exact Hi|exact Hv]. intros j Hj Hc. symmetry. eapply Hn; eauto.
  - intros v H. replace (to_raw size items (Unspecified v)) with v by (destruct items; reflexivity). now apply from_raw_none.
Qed.
(*@C02
The exception: [Unspecified(v)] for a [v] that has a name comes back under its name, never as [Unspecified]. *)
Lemma C02_unspecified_alias_pf : forall size items v i, In i items -> covers size i v -> from_raw size items (to_raw size items (Unspecified v)) <> Unspecified v.
Proof.
  intros size items v i Hi Hc. replace (to_raw size items (Unspecified v)) with v by (destruct items; reflexivity). eapply from_raw_named; eauto.
Qed.
(*@ex*)
Example C02_ex : let items := [Basic 10 0; Basic 11 1; Range 12 20 30] in distinct_names items /\ non_overlapping 8 items.
Proof.
  cbv zeta. split; [unfold distinct_names; cbn; repeat constructor; cbn; intuition discriminate|].
  intros i j v Hi Hj Hc Hc'. cbn in Hi, Hj.
  destruct Hi as [<-|[<-|[<-|[]]]]; destruct Hj as [<-|[<-|[<-|[]]]]; try reflexivity; cbn in Hc, Hc'; exfalso; change (literal 8 0) with 0 in *; change (literal 8 1) with 1 in *; change (literal 8 20) with 20 in *; change (literal 8 30) with 30 in *; lia.
Qed.

(** ** C03 *)
(** the bits of the word that belong to a field *)
Definition owns (size : Z) (f : Field) (k : Z) : Prop := field_shift size f <= k < field_shift size f + fl_len f.
Definition in_word (size : Z) (f : Field) : Prop := 0 <= field_shift size f /\ 0 < fl_len f /\ 0 <= fl_pos f.
Definition disjoint_fields (size : Z) (fields : list Field) : Prop :=
  ForallOrdPairs (fun f g => forall k, owns size f k -> owns size g k -> False) fields.
(** a plain field is one bit, a typed field has an enumeration without cross-references that is at least as wide *)
Definition field_ok (size : Z) (f : Field) : Prop :=
  in_word size f /\
  match fl_xref f with
  | None => fl_len f = 1
  | Some (xsize, items) => distinct_names items /\ no_crossref items /\ fl_len f <= type_bits xsize
  end.
Definition word_size (size : Z) : Prop := type_bits size = size.
Lemma field_raw_bits size f v : word_size size -> field_ok size f -> 0 <= v ->
  field_raw size f (read_field size v f) = Z.land (Z.shiftr v (field_shift size f)) (Z.ones (fl_len f)) /\
  0 <= field_raw size f (read_field size v f) < 2 ^ fl_len f.
Proof.
  intros Hsz [(Hs & Hl & Hp) Hf] Hv.
  assert (Ho : 2 ^ fl_len f - 1 = Z.ones (fl_len f)) by (rewrite Z.ones_equiv; lia).
  assert (Hr : 0 <= Z.land (Z.shiftr v (field_shift size f)) (Z.ones (fl_len f)) < 2 ^ fl_len f).
  { rewrite Z.land_ones by lia. apply Z.mod_pos_bound. apply Z.pow_pos_nonneg; lia. }
  assert (Hb : fl_len f <= size) by (unfold field_shift in Hs; lia).
  set (raw := Z.land (Z.shiftr v (field_shift size f)) (Z.ones (fl_len f))) in *.
  assert (E : field_raw size f (read_field size v f) = raw); [|rewrite E; auto].
  unfold field_raw, read_field. rewrite Ho. fold raw. destruct (fl_xref f) as [[xsize items]|].
  - destruct Hf as (Hd & Hx & Hw).
    assert (H1 : 2 ^ fl_len f <= 2 ^ type_bits xsize) by (apply Z.pow_le_mono_r; lia).
    assert (H2 : 2 ^ fl_len f <= 2 ^ type_bits size) by (apply Z.pow_le_mono_r; [lia|]; rewrite Hsz; lia).
    rewrite (Z.mod_small raw (2 ^ type_bits xsize)) by lia. rewrite C01_lossless_pf by assumption. rewrite (Z.mod_small raw (2 ^ type_bits xsize)) by lia. apply Z.mod_small. lia.
  - rewrite Hf in Hr. change (2 ^ 1) with 2 in Hr. destruct (Z.eqb_spec raw 0); cbn [negb]; lia.
Qed.
Lemma write_field_bits size f r : word_size size -> in_word size f ->
  forall x, field_raw size f x = r -> 0 <= r < 2 ^ fl_len f ->
  forall k, 0 <= k -> Z.testbit (write_field size f x) k = if (field_shift size f <=? k) && (k <? field_shift size f + fl_len f) then Z.testbit r (k - field_shift size f) else false.
Proof.
  intros Hsz (Hs & Hl & Hp) x E Hr k Hk. unfold write_field. rewrite E, Hsz.
  assert (Hsh : 0 <= Z.shiftl r (field_shift size f) < 2 ^ size).
  { rewrite Z.shiftl_mul_pow2 by lia. split; [apply Z.mul_nonneg_nonneg; [lia|apply Z.pow_nonneg; lia]|].
    apply Z.lt_le_trans with (2 ^ fl_len f * 2 ^ field_shift size f).
    - apply Z.mul_lt_mono_pos_r; [apply Z.pow_pos_nonneg; lia|lia].
    - rewrite <- Z.pow_add_r by lia. apply Z.pow_le_mono_r; [lia|]. unfold field_shift in *. lia. }
  rewrite Z.mod_small by exact Hsh. rewrite Z.shiftl_spec by lia.
  destruct (Z.leb_spec (field_shift size f) k); destruct (Z.ltb_spec k (field_shift size f + fl_len f)); cbn [andb]; try reflexivity.
  - destruct (Z.eq_dec r 0) as [->|Hz]; [apply Z.testbit_0_l|]. apply Z.bits_above_log2; [lia|].
    apply Z.lt_le_trans with (fl_len f); [apply Z.log2_lt_pow2; lia|lia].
  - apply Z.testbit_neg_r. lia.
  - apply Z.testbit_neg_r. lia.
Qed.
Lemma bitfield_into_bits size fields xs : word_size size -> Forall (in_word size) fields ->
  Forall2 (fun f x => 0 <= field_raw size f x < 2 ^ fl_len f) fields xs ->
  forall k, 0 <= k -> (Z.testbit (bitfield_into size fields xs) k = true <->
    exists f x, In (f, x) (combine fields xs) /\ owns size f k /\ Z.testbit (field_raw size f x) (k - field_shift size f) = true).
Proof.
  intros Hsz Hin H. induction H as [|f x fields xs Hfx H IH]; intros k Hk.
  - cbn. rewrite Z.testbit_0_l. split; [discriminate|]. intros (? & ? & [] & _).
  - inversion Hin as [|? ? Hi1 Hi2]; subst. cbn [bitfield_into combine]. rewrite Z.lor_spec, orb_true_iff, (IH Hi2 k Hk).
    rewrite (write_field_bits size f _ Hsz Hi1 x eq_refl Hfx k Hk). unfold owns. split.
    + intros [E|(g & y & Hg & Ho & Hb)]; [|exists g, y; split; [now right|auto]].
      exists f, x. split; [now left|]. destruct (Z.leb_spec (field_shift size f) k); destruct (Z.ltb_spec k (field_shift size f + fl_len f)); cbn [andb] in E; try discriminate. auto.
    + intros (g & y & [Eg|Hg] & Ho & Hb); [|right; eauto]. left. assert (f = g /\ x = y) as [<- <-] by (split; congruence).
      destruct (Z.leb_spec (field_shift size f) k); destruct (Z.ltb_spec k (field_shift size f + fl_len f)); cbn [andb]; try lia. exact Hb.
Qed.
(*@C03
Decoding a word and encoding the record gives the word with exactly the bits that belong to no field cleared. *)
Lemma C03_decode_encode_pf : forall size fields v, word_size size -> Forall (field_ok size) fields -> 0 <= v ->
  forall k, 0 <= k -> (Z.testbit (bitfield_into size fields (bitfield_from size fields v)) k = true <->
    Z.testbit v k = true /\ exists f, In f fields /\ owns size f k).
Proof.
  intros size fields v Hsz Hok Hv k Hk.
  assert (Hfw : Forall (in_word size) fields) by (eapply Forall_impl; [|exact Hok]; intros f Hf; apply Hf).
  assert (Hv2 : Forall2 (fun f x => 0 <= field_raw size f x < 2 ^ fl_len f) fields (bitfield_from size fields v)).
  { clear -Hsz Hok Hv. induction Hok as [|f fields Hf Hok IH]; cbn; constructor; [apply field_raw_bits; assumption|exact IH]. }
  rewrite (bitfield_into_bits size fields _ Hsz Hfw Hv2 k Hk).
  assert (Hbit : forall f, In f fields -> owns size f k -> Z.testbit (field_raw size f (read_field size v f)) (k - field_shift size f) = Z.testbit v k).
  { intros f Hi Ho. rewrite Forall_forall in Hok. specialize (Hok f Hi). destruct (field_raw_bits size f v Hsz Hok Hv) as [-> _].
    destruct Hok as [(Hs & Hl & Hp) _]. unfold owns in Ho. rewrite Z.land_spec, Z.shiftr_spec by lia. rewrite Z.ones_spec_low by lia.
    rewrite andb_true_r. f_equal. lia. }
  assert (Hcomb : forall f x, In (f, x) (combine fields (bitfield_from size fields v)) <-> In f fields /\ x = read_field size v f).
  { clear. induction fields as [|g fields IH]; intros f x; cbn; [tauto|]. rewrite IH. split.
    - intros [E|[]]; [split; [left; congruence|congruence]|auto].
    - intros [[->|] ->]; auto. }
  split.
  - intros (f & x & Hi & Ho & Hb). apply Hcomb in Hi. destruct Hi as [Hi ->]. rewrite (Hbit f Hi Ho) in Hb. eauto.
  - intros (Hb & f & Hi & Ho). exists f, (read_field size v f). split; [apply Hcomb; auto|]. split; [exact Ho|]. now rewrite (Hbit f Hi Ho).
Qed.
(*@C03
In particular a word is reproduced if the fields cover all its bits. *)
Lemma C03_full_word_pf : forall size fields v, word_size size -> Forall (field_ok size) fields -> 0 <= v ->
  (forall k, Z.testbit v k = true -> exists f, In f fields /\ owns size f k) -> bitfield_into size fields (bitfield_from size fields v) = v.
Proof.
  intros size fields v Hsz Hok Hv Hc. apply Z.bits_inj'. intros k Hk. apply eq_true_iff_eq.
  rewrite (C03_decode_encode_pf size fields v Hsz Hok Hv k Hk). split; [tauto|]. auto.
Qed.
(** a value that fits its field: a canonical enumeration value whose number fits the field *)
Definition value_fits (f : Field) (x : FieldValue) : Prop :=
  match fl_xref f, x with
  | None, FBool _ => True
  | Some (xsize, items), FEnum e => 0 <= to_raw xsize items e < 2 ^ fl_len f /\ from_raw xsize items (to_raw xsize items e) = e
  | _, _ => False
  end.
(*@C03
Encoding a record whose field values fit and decoding the word returns the record. *)
Lemma C03_encode_decode_pf : forall size fields xs, word_size size -> Forall (field_ok size) fields -> disjoint_fields size fields ->
  Forall2 value_fits fields xs -> bitfield_from size fields (bitfield_into size fields xs) = xs.
Proof.
  intros size fields xs Hsz Hok Hd Hf.
  assert (Hfw : Forall (in_word size) fields) by (eapply Forall_impl; [|exact Hok]; intros f H; apply H).
  assert (Hraw : forall f x, field_ok size f -> value_fits f x -> 0 <= field_raw size f x < 2 ^ fl_len f /\
     forall v, Z.land (Z.shiftr v (field_shift size f)) (Z.ones (fl_len f)) = field_raw size f x -> read_field size v f = x).
  { intros f x [(Hs & Hl & Hp) Ho] Hx. unfold value_fits in Hx. unfold field_raw, read_field.
    assert (Hon : 2 ^ fl_len f - 1 = Z.ones (fl_len f)) by (rewrite Z.ones_equiv; lia). rewrite Hon.
    destruct (fl_xref f) as [[xsize items]|]; destruct x as [b|e]; try contradiction.
    - destruct Ho as (Hdn & Hx' & Hw). destruct Hx as [Hr Hc].
      assert (H1 : 2 ^ fl_len f <= 2 ^ type_bits xsize) by (apply Z.pow_le_mono_r; lia).
      assert (H2 : 2 ^ fl_len f <= 2 ^ type_bits size) by (apply Z.pow_le_mono_r; [lia|]; rewrite Hsz; unfold field_shift in Hs; lia).
      rewrite (Z.mod_small _ (2 ^ type_bits xsize)) by lia. rewrite Z.mod_small by lia. split; [exact Hr|]. intros v ->.
      rewrite Z.mod_small by lia. now rewrite Hc.
    - rewrite Ho. change (2 ^ 1) with 2. split; [destruct b; lia|]. intros v ->. destruct b; reflexivity. }
  assert (Hv2 : Forall2 (fun f x => 0 <= field_raw size f x < 2 ^ fl_len f) fields xs).
  { clear -Hok Hf Hraw. induction Hf as [|f x fields xs H1 H2 IH]; [constructor|]. inversion Hok; subst. constructor; [apply Hraw; assumption|auto]. }
  assert (Hpos : 0 <= bitfield_into size fields xs).
  { clear. revert xs. induction fields as [|f fields IH]; intros [|x xs]; cbn; try lia. apply Z.lor_nonneg. split; [|apply IH].
    unfold write_field. apply Z.mod_pos_bound. apply Z.pow_pos_nonneg; [lia|]. pose proof (type_bits_pos size); lia. }
  set (w := bitfield_into size fields xs) in *.
  assert (Hget : forall f x, In (f, x) (combine fields xs) -> read_field size w f = x).
  { intros f x Hi. assert (Hfo : field_ok size f /\ value_fits f x /\ In f fields).
    { clear -Hi Hok Hf. induction Hf as [|g y fields xs H1 H2 IH]; [destruct Hi|]. inversion Hok; subst. destruct Hi as [E|Hi].
      - assert (g = f /\ y = x) as [<- <-] by (split; congruence). split; [assumption|]. split; [assumption|now left].
      - destruct (IH H4 Hi) as (A & B & C). split; [assumption|]. split; [assumption|now right]. }
    destruct Hfo as (Hfo & Hfx & Hfi). destruct (Hraw f x Hfo Hfx) as [Hr Hread]. apply Hread. apply Z.bits_inj'. intros k Hk.
    destruct Hfo as [(Hs & Hl & Hp) _]. rewrite Z.land_spec, Z.shiftr_spec by lia.
    destruct (Z.ltb_spec k (fl_len f)) as [Hkl|Hkl].
    - rewrite Z.ones_spec_low by lia. rewrite andb_true_r. apply eq_true_iff_eq.
      unfold w. rewrite (bitfield_into_bits size fields xs Hsz Hfw Hv2) by lia. split.
      + intros (g & y & Hg & Ho & Hb).
        assert (E : (g, y) = (f, x)).
        { clear -Hd Hi Hg Ho Hf Hs Hl Hk Hkl. revert Hd Hi Hg. induction Hf as [|a b fields xs H1 H2 IH]; intros Hd Hi Hg; [destruct Hi|].
          inversion Hd as [|? ? Hd1 Hd2]; subst. rewrite Forall_forall in Hd1.
          assert (Hof : owns size f (k + field_shift size f)) by (unfold owns; lia).
          destruct Hi as [Ei|Hi]; destruct Hg as [Eg|Hg].
          - congruence.
          - assert (a = f) by congruence; subst a. exfalso. apply (Hd1 g (in_combine_l _ _ _ _ Hg) _ Hof Ho).
          - assert (a = g) by congruence; subst a. exfalso. apply (Hd1 f (in_combine_l _ _ _ _ Hi) _ Ho Hof).
          - auto. }
        assert (g = f) by congruence. assert (y = x) by congruence. subst. replace (k + field_shift size f - field_shift size f) with k in Hb by lia. exact Hb.
      + intros Hb. exists f, x. split; [exact Hi|]. split; [unfold owns; lia|]. replace (k + field_shift size f - field_shift size f) with k by lia. exact Hb.
    - rewrite Z.ones_spec_high by lia. rewrite andb_false_r. symmetry.
      destruct (Z.eq_dec (field_raw size f x) 0) as [->|Hz]; [apply Z.testbit_0_l|]. apply Z.bits_above_log2; [lia|].
      apply Z.lt_le_trans with (fl_len f); [apply Z.log2_lt_pow2; lia|lia]. }
  unfold bitfield_from. clear -Hget Hf. revert Hget. generalize w. clear w. intros w.
  induction Hf as [|f x fields xs H1 H2 IH]; intros Hget; [reflexivity|]. cbn [map]. f_equal.
  - apply Hget. now left.
  - apply IH. intros g y Hg. apply Hget. now right.
Qed.
(*@C03
Refutation beyond that: a value too large for its field ([Unspecified(5)] in two bits) is not masked and overwrites the neighbouring field. *)
Lemma C03_oversized_value_refuted_pf : exists fields xs, Forall (field_ok 8) fields /\ disjoint_fields 8 fields /\
  bitfield_from 8 fields (bitfield_into 8 fields xs) <> xs /\
  nth 0 (bitfield_from 8 fields (bitfield_into 8 fields xs)) (FBool true) <> nth 0 xs (FBool true).
Proof.
  exists [MkField 5 1 None; MkField 6 2 (Some (8, [Basic 1 0]))], [FBool false; FEnum (Unspecified 5)].
  split; [|split].
  - repeat constructor; cbn; try lia; try tauto. intros ? ? ? [H|[]]; discriminate H.
  - repeat constructor. intros k. unfold owns, field_shift. cbn. lia.
  - split; vm_compute; discriminate.
Qed.
(*@C03
Refutation for plain fields longer than one bit: they are read as a flag and their value is lost. *)
Lemma C03_wide_flag_refuted_pf : exists f v, in_word 8 f /\ fl_xref f = None /\ 0 <= v < 256 /\ (forall k, Z.testbit v k = true -> owns 8 f k) /\
  bitfield_into 8 [f] (bitfield_from 8 [f] v) <> v.
Proof.
  exists (MkField 6 2 None), 2. split; [unfold in_word, field_shift; cbn; lia|]. split; [reflexivity|]. split; [lia|].
  split; [|vm_compute; discriminate]. intros k H. unfold owns, field_shift. cbn.
  destruct (Z.eq_dec k 1) as [->|]; [lia|]. exfalso.
  destruct (Z.ltb_spec k 0) as [Hk|Hk]; [rewrite Z.testbit_neg_r in H by lia; discriminate|].
  destruct (Z.eq_dec k 0) as [->|]; [discriminate H|]. rewrite Z.bits_above_log2 in H by (cbn; lia). discriminate.
Qed.
(*@ex*)
Example C03_ex : let fields := [MkField 0 1 None; MkField 1 3 (Some (8, [Basic 1 0; Basic 2 5])); MkField 31 1 None] in
  word_size 32 /\ Forall (field_ok 32) fields /\ disjoint_fields 32 fields /\
  Forall2 value_fits fields [FBool true; FEnum (VBasic 2); FBool true] /\ bitfield_into 32 fields [FBool true; FEnum (VBasic 2); FBool true] = 0xD0000001.
Proof.
  cbv zeta. split; [reflexivity|]. split.
  { repeat constructor; cbn; try lia; try (intuition discriminate). intros ? ? ? [H|[H|[]]]; discriminate H. }
  split; [repeat constructor; intros k; unfold owns, field_shift; cbn; lia|].
  split; [repeat constructor; cbn; try reflexivity; change (literal 8 5) with 5; lia|vm_compute; reflexivity].
Qed.

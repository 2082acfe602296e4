(** * Properties: Enum

    Theorems only: each is closed by the lemma of the same name in L_Enum.v. *)
From Coq Require Import ZArith List Lia Bool String Ascii.
From Verif Require Import Base EnumGen L_Enum.
Import ListNotations. Open Scope Z_scope.

(** C01. For every table without cross-referenced rows, whatever its values and even if rows overlap or exceed the width of the
field, every raw value of the field is decoded and encodes to itself. *)
Theorem C01_lossless : forall size items v, distinct_names items -> no_crossref items -> to_raw size items (from_raw size items v) = v.
Proof. exact C01_lossless_pf. Qed.
Print Assumptions C01_lossless.

(** C01. With cross-referenced rows, exactly the raw values not taken by such a row survive: a value decoded into a cross-referenced variant is
encoded as the default of the contained record. *)
Theorem C01_crossref_rows : forall size items v, distinct_names items ->
  (exists n d, from_raw size items v = VCrossRef n d /\ to_raw size items (from_raw size items v) = d) \/
  to_raw size items (from_raw size items v) = v.
Proof. exact C01_crossref_rows_pf. Qed.
Print Assumptions C01_crossref_rows.

(** C01. Refutation for cross-referenced rows: a table with one such row changes the raw value of that row. *)
Theorem C01_crossref_refuted : exists items v, distinct_names items /\ to_raw 8 items (from_raw 8 items v) <> v.
Proof. exact C01_crossref_refuted_pf. Qed.
Print Assumptions C01_crossref_refuted.

Example C01_ex : let items := [Basic 10 0; Basic 11 1; Range 12 20 30; Basic 13 255] in distinct_names items /\ no_crossref items /\
  from_raw 8 items 25 = VRange 12 25 /\ from_raw 8 items 255 = VBasic 13 /\ from_raw 8 items 77 = Unspecified 77.
Proof.
  cbv zeta. split; [unfold distinct_names; cbn; repeat constructor; cbn; intuition discriminate|].
  split; [intros n k d H; cbn in H; intuition discriminate|]. repeat split; reflexivity.
Qed.

(** C02. For every non-overlapping table without cross-references: a value obtained from the wire is the identical value after being written and read. *)
Theorem C02_decoded_values_stable : forall size items v, distinct_names items -> no_crossref items ->
  from_raw size items (to_raw size items (from_raw size items v)) = from_raw size items v.
Proof. exact C02_decoded_values_stable_pf. Qed.
Print Assumptions C02_decoded_values_stable.

(** C02. And every value a program can name: each literal row, each range row with a value of its range, and [Unspecified] with a value no row
covers survive the wire. *)
Theorem C02_named_values_survive : forall size items, distinct_names items -> non_overlapping size items ->
  (forall n k, In (Basic n k) items -> from_raw size items (to_raw size items (VBasic n)) = VBasic n) /\
  (forall n lo hi v, In (Range n lo hi) items -> literal size lo <= v <= literal size hi -> from_raw size items (to_raw size items (VRange n v)) = VRange n v) /\
  (forall v, (forall i, In i items -> ~ covers size i v) -> from_raw size items (to_raw size items (Unspecified v)) = Unspecified v).
Proof. exact C02_named_values_survive_pf. Qed.
Print Assumptions C02_named_values_survive.

(** C02. The exception: [Unspecified(v)] for a [v] that has a name comes back under its name, never as [Unspecified]. *)
Theorem C02_unspecified_alias : forall size items v i, In i items -> covers size i v -> from_raw size items (to_raw size items (Unspecified v)) <> Unspecified v.
Proof. exact C02_unspecified_alias_pf. Qed.
Print Assumptions C02_unspecified_alias.

Example C02_ex : let items := [Basic 10 0; Basic 11 1; Range 12 20 30] in distinct_names items /\ non_overlapping 8 items.
Proof.
  cbv zeta. split; [unfold distinct_names; cbn; repeat constructor; cbn; intuition discriminate|].
  intros i j v Hi Hj Hc Hc'. cbn in Hi, Hj.
  destruct Hi as [<-|[<-|[<-|[]]]]; destruct Hj as [<-|[<-|[<-|[]]]]; try reflexivity; cbn in Hc, Hc'; exfalso; change (literal 8 0) with 0 in *; change (literal 8 1) with 1 in *; change (literal 8 20) with 20 in *; change (literal 8 30) with 30 in *; lia.
Qed.

(** C03. Decoding a word and encoding the record gives the word with exactly the bits that belong to no field cleared. *)
Theorem C03_decode_encode : forall size fields v, word_size size -> Forall (field_ok size) fields -> 0 <= v ->
  forall k, 0 <= k -> (Z.testbit (bitfield_into size fields (bitfield_from size fields v)) k = true <->
    Z.testbit v k = true /\ exists f, In f fields /\ owns size f k).
Proof. exact C03_decode_encode_pf. Qed.
Print Assumptions C03_decode_encode.

(** C03. In particular a word is reproduced if the fields cover all its bits. *)
Theorem C03_full_word : forall size fields v, word_size size -> Forall (field_ok size) fields -> 0 <= v ->
  (forall k, Z.testbit v k = true -> exists f, In f fields /\ owns size f k) -> bitfield_into size fields (bitfield_from size fields v) = v.
Proof. exact C03_full_word_pf. Qed.
Print Assumptions C03_full_word.

(** C03. Encoding a record whose field values fit and decoding the word returns the record. *)
Theorem C03_encode_decode : forall size fields xs, word_size size -> Forall (field_ok size) fields -> disjoint_fields size fields ->
  Forall2 value_fits fields xs -> bitfield_from size fields (bitfield_into size fields xs) = xs.
Proof. exact C03_encode_decode_pf. Qed.
Print Assumptions C03_encode_decode.

(** C03. Refutation beyond that: a value too large for its field ([Unspecified(5)] in two bits) is not masked and overwrites the neighbouring field. *)
Theorem C03_oversized_value_refuted : exists fields xs, Forall (field_ok 8) fields /\ disjoint_fields 8 fields /\
  bitfield_from 8 fields (bitfield_into 8 fields xs) <> xs /\
  nth 0 (bitfield_from 8 fields (bitfield_into 8 fields xs)) (FBool true) <> nth 0 xs (FBool true).
Proof. exact C03_oversized_value_refuted_pf. Qed.
Print Assumptions C03_oversized_value_refuted.

(** C03. Refutation for plain fields longer than one bit: they are read as a flag and their value is lost. *)
Theorem C03_wide_flag_refuted : exists f v, in_word 8 f /\ fl_xref f = None /\ 0 <= v < 256 /\ (forall k, Z.testbit v k = true -> owns 8 f k) /\
  bitfield_into 8 [f] (bitfield_from 8 [f] v) <> v.
Proof. exact C03_wide_flag_refuted_pf. Qed.
Print Assumptions C03_wide_flag_refuted.

Example C03_ex : let fields := [MkField 0 1 None; MkField 1 3 (Some (8, [Basic 1 0; Basic 2 5])); MkField 31 1 None] in
  word_size 32 /\ Forall (field_ok 32) fields /\ disjoint_fields 32 fields /\
  Forall2 value_fits fields [FBool true; FEnum (VBasic 2); FBool true] /\ bitfield_into 32 fields [FBool true; FEnum (VBasic 2); FBool true] = 0xD0000001.
Proof.
  cbv zeta. split; [reflexivity|]. split.
  { repeat constructor; cbn; try lia; try (intuition discriminate). intros ? ? ? [H|[H|[]]]; discriminate H. }
  split; [repeat constructor; intros k; unfold owns, field_shift; cbn; lia|].
  split; [repeat constructor; cbn; try reflexivity; change (literal 8 5) with 5; lia|vm_compute; reflexivity].
Qed.

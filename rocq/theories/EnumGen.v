(** * The enumeration and bitfield generator of build.rs

    The SISO-REF-010 XML tables are not part of the repository, so the generator is
    modelled as a function from an arbitrary table to the two generated conversions. *)
From Coq Require Import ZArith List Lia Bool.
From Verif Require Import Base.
Import ListNotations. Open Scope Z_scope.

(** An item of an enumeration table, build.rs (EnumItem). A variant is identified by its Rust identifier,
    here a number ([format_name], [format_name_postfix]). Values are usize. The contained type of a cross-referenced item is
    represented by the integer its [Into] yields for the contained value; [dflt] is that integer for [Default::default()]. *)
Inductive Item :=
| Basic (name value : Z)
| Range (name lo hi : Z)
| CrossRef (name value dflt : Z).
Definition item_name (i : Item) : Z := match i with Basic n _ | Range n _ _ | CrossRef n _ _ => n end.
(** A value of the generated enumeration type, build.rs:737-785 (quote_enum_decl_arms) *)
Inductive EnumValue :=
| VBasic (name : Z)
| VRange (name value : Z)
| VCrossRef (name contained : Z)
| Unspecified (value : Z).

(* size_to_type, build.rs:1105-1113 *)
Definition type_bits (size : Z) : Z := if size =? 64 then 64 else if size =? 32 then 32 else if size =? 16 then 16 else 8.
(* discriminant_literal, build.rs:1115-1123: [value as u8] and so on *)
Definition literal (size value : Z) : Z := value mod 2 ^ type_bits size.

(* quote_enum_from_arms, build.rs:802-842: the arms of [match value] in table order *)
Fixpoint from_raw (size : Z) (items : list Item) (v : Z) : EnumValue :=
  match items with
  | [] => Unspecified v
  | Basic n k :: t => if v =? literal size k then VBasic n else from_raw size t v
  | Range n lo hi :: t => if (literal size lo <=? v) && (v <=? literal size hi) then VRange n v else from_raw size t v
  | CrossRef n k d :: t => if v =? literal size k then VCrossRef n d else from_raw size t v
  end.
(* quote_enum_into_arms, build.rs:860-893: a match on the variant. A variant name that is not in the table cannot be written
   in Rust; the model gives it 0. *)
Fixpoint basic_literal (size : Z) (items : list Item) (n : Z) : Z :=
  match items with
  | [] => 0
  | Basic n' k :: t => if n =? n' then literal size k else basic_literal size t n
  | _ :: t => basic_literal size t n
  end.
Definition to_raw (size : Z) (items : list Item) (x : EnumValue) : Z :=
  match x with
  | Unspecified v => v
  | VRange _ v => v
  | VCrossRef _ c => c
  | VBasic n => basic_literal size items n
  end.

(** Rust rejects an enum that declares a variant twice. *)
Definition distinct_names (items : list Item) : Prop := NoDup (map item_name items).
Definition no_crossref (items : list Item) : Prop := forall n k d, ~ In (CrossRef n k d) items.

(** ** Bitfields *)
(** A field of a bitfield record, build.rs (BitfieldItem): position, length and the enumeration that types it, if any. *)
Record Field := MkField { fl_pos : Z; fl_len : Z; fl_xref : option (Z * list Item) }.
Inductive FieldValue := FBool (b : bool) | FEnum (x : EnumValue).
(* quote_bitfield_from_fields, build.rs:1022-1047 *)
Definition field_shift (size : Z) (f : Field) : Z := size - fl_len f - fl_pos f.
Definition read_field (size : Z) (v : Z) (f : Field) : FieldValue :=
  let raw := Z.land (Z.shiftr v (field_shift size f)) (2 ^ fl_len f - 1) in
  match fl_xref f with
  | Some (xsize, items) => FEnum (from_raw xsize items (raw mod 2 ^ type_bits xsize))
  | None => FBool (negb (raw =? 0))
  end.
Definition bitfield_from (size : Z) (fields : list Field) (v : Z) : list FieldValue := map (read_field size v) fields.
(* quote_bitfield_into_fields, build.rs:1072-1094; [<<] on the unsigned type drops what leaves it *)
Definition field_raw (size : Z) (f : Field) (x : FieldValue) : Z :=
  match fl_xref f, x with
  | Some (xsize, items), FEnum e => (to_raw xsize items e mod 2 ^ type_bits xsize) mod 2 ^ type_bits size
  | None, FBool b => if b then 1 else 0
  | _, _ => 0 (* ill-typed, cannot be written in Rust *)
  end.
Definition write_field (size : Z) (f : Field) (x : FieldValue) : Z :=
  Z.shiftl (field_raw size f x) (field_shift size f) mod 2 ^ type_bits size.
(* quote_bitfield_into_impl, build.rs:1049-1070: [0 | a | b | ...] *)
Fixpoint bitfield_into (size : Z) (fields : list Field) (xs : list FieldValue) : Z :=
  match fields, xs with
  | f :: fs, x :: r => Z.lor (write_field size f x) (bitfield_into size fs r)
  | _, _ => 0
  end.

(** ** Facts *)
Lemma type_bits_pos size : 8 <= type_bits size <= 64.
Proof. unfold type_bits. destruct (size =? 64), (size =? 32), (size =? 16); lia. Qed.

Lemma to_raw_basic size items n k : distinct_names items -> In (Basic n k) items -> to_raw size items (VBasic n) = literal size k.
Proof.
  unfold distinct_names, to_raw. induction items as [|i items IH]; intros Hd Hin; [destruct Hin|].
  cbn [map] in Hd. inversion Hd as [|? ? Hn Hd']; subst. destruct Hin as [->|Hin].
  - cbn [basic_literal]. now rewrite Z.eqb_refl.
  - specialize (IH Hd' Hin). destruct i as [n' k'|n' lo hi|n' k' d]; cbn [basic_literal]; try exact IH.
    destruct (Z.eqb_spec n n') as [->|]; [|exact IH]. exfalso. apply Hn. cbn [item_name]. change n' with (item_name (Basic n' k)). now apply in_map.
Qed.
(** which row a raw value selects *)
Lemma from_raw_cases size items v :
  (exists n k, In (Basic n k) items /\ v = literal size k /\ from_raw size items v = VBasic n) \/
  (exists n lo hi, In (Range n lo hi) items /\ literal size lo <= v <= literal size hi /\ from_raw size items v = VRange n v) \/
  (exists n k d, In (CrossRef n k d) items /\ v = literal size k /\ from_raw size items v = VCrossRef n d) \/
  from_raw size items v = Unspecified v.
Proof.
  induction items as [|i items IH]; [right; right; right; reflexivity|].
  assert (Hrec : from_raw size (i :: items) v = from_raw size items v ->
    (exists n k, In (Basic n k) (i :: items) /\ v = literal size k /\ from_raw size (i :: items) v = VBasic n) \/
    (exists n lo hi, In (Range n lo hi) (i :: items) /\ literal size lo <= v <= literal size hi /\ from_raw size (i :: items) v = VRange n v) \/
    (exists n k d, In (CrossRef n k d) (i :: items) /\ v = literal size k /\ from_raw size (i :: items) v = VCrossRef n d) \/
    from_raw size (i :: items) v = Unspecified v).
  { intros E. rewrite E. destruct IH as [(n & k & ? & ? & ?)|[(n & lo & hi & ? & ? & ?)|[(n & k & d & ? & ? & ?)|?]]].
    - left. exists n, k. repeat split; auto. now right.
    - right; left. exists n, lo, hi. repeat split; auto; try lia. now right.
    - right; right; left. exists n, k, d. repeat split; auto. now right.
    - auto. }
  destruct i as [n k|n lo hi|n k d].
  - destruct (Z.eqb_spec v (literal size k)) as [E|E].
    + left. exists n, k. split; [now left|]. split; [exact E|]. cbn [from_raw]. subst v. now rewrite Z.eqb_refl.
    + apply Hrec. cbn [from_raw]. destruct (Z.eqb_spec v (literal size k)); [contradiction|reflexivity].
  - destruct ((literal size lo <=? v) && (v <=? literal size hi)) eqn:E.
    + right; left. exists n, lo, hi. split; [now left|]. split; [apply andb_true_iff in E; lia|]. cbn [from_raw]. now rewrite E.
    + apply Hrec. cbn [from_raw]. now rewrite E.
  - destruct (Z.eqb_spec v (literal size k)) as [E|E].
    + right; right; left. exists n, k, d. split; [now left|]. split; [exact E|]. cbn [from_raw]. subst v. now rewrite Z.eqb_refl.
    + apply Hrec. cbn [from_raw]. destruct (Z.eqb_spec v (literal size k)); [contradiction|reflexivity].
Qed.
(** a row covers a raw value *)
Definition covers (size : Z) (i : Item) (v : Z) : Prop :=
  match i with Basic _ k | CrossRef _ k _ => v = literal size k | Range _ lo hi => literal size lo <= v <= literal size hi end.
Definition selected (i : Item) (v : Z) : EnumValue :=
  match i with Basic n _ => VBasic n | Range n _ _ => VRange n v | CrossRef n _ d => VCrossRef n d end.
Lemma from_raw_first size items v i : (forall j, In j items -> covers size j v -> j = i) -> In i items -> covers size i v ->
  from_raw size items v = selected i v.
Proof.
  intros Hu Hin Hc. induction items as [|j items IH]; [destruct Hin|].
  assert (Hj : covers size j v -> j = i) by (intros H; apply Hu; [now left|exact H]).
  assert (IH' : In i items -> from_raw size items v = selected i v) by (intros H; apply IH; [intros; apply Hu; [now right|assumption]|exact H]).
  assert (Hij : ~ covers size j v -> In i items) by (intros H; destruct Hin as [->|]; [contradiction|assumption]).
  destruct j as [n k|n lo hi|n k d]; cbn [from_raw].
  - destruct (Z.eqb_spec v (literal size k)) as [E|E]; [rewrite <- (Hj E); reflexivity|apply IH', Hij; exact E].
  - destruct (Z.leb_spec (literal size lo) v); destruct (Z.leb_spec v (literal size hi)); cbn [andb];
      [rewrite <- (Hj (conj H H0)); reflexivity| | |]; apply IH', Hij; intros [? ?]; lia.
  - destruct (Z.eqb_spec v (literal size k)) as [E|E]; [rewrite <- (Hj E); reflexivity|apply IH', Hij; exact E].
Qed.
Lemma from_raw_none size items v : (forall j, In j items -> ~ covers size j v) -> from_raw size items v = Unspecified v.
Proof.
  intros H. destruct (from_raw_cases size items v) as [(n & k & Hi & E & _)|[(n & lo & hi & Hi & E & _)|[(n & k & d & Hi & E & _)|E]]]; [..|exact E];
  exfalso; eapply H; try exact Hi; exact E.
Qed.
Lemma from_raw_named size items v j : In j items -> covers size j v -> from_raw size items v <> Unspecified v.
Proof.
  intros Hin Hc. induction items as [|i items IH]; [destruct Hin|].
  destruct i as [n k|n lo hi|n k d]; cbn [from_raw].
  - destruct (Z.eqb_spec v (literal size k)); [discriminate|]. apply IH. destruct Hin as [<-|]; [contradiction|assumption].
  - destruct (Z.leb_spec (literal size lo) v); destruct (Z.leb_spec v (literal size hi)); cbn [andb]; [discriminate| | |];
    (apply IH; destruct Hin as [<-|]; [destruct Hc; lia|assumption]).
  - destruct (Z.eqb_spec v (literal size k)); [discriminate|]. apply IH. destruct Hin as [<-|]; [contradiction|assumption].
Qed.

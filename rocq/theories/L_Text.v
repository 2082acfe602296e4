(** * Time stamps and text forms *)
From Coq Require Import ZArith List Lia Bool String Ascii.
From Verif Require Import Base DisCommon DisEntity DisText.
Import ListNotations. Open Scope Z_scope.

(** ** C21 *)
Lemma land1 v : Z.land v 1 = v mod 2.
Proof. change 1 with (Z.ones 1). now rewrite Z.land_ones by lia. Qed.
Lemma lor1 u : 0 <= u -> Z.lor (2 * u) 1 = 2 * u + 1.
Proof. intros H. destruct u; try lia; reflexivity. Qed.
(*@C21
Reading a raw time stamp: the least significant bit says absolute, the upper 31 bits are the units; converting back
gives the raw value, for all 2^32 values. *)
Lemma C21_raw_round_trip_pf : forall v, u32 v ->
  ts_units (timestamp_from_raw v) = v / 2 /\ (ts_absolute (timestamp_from_raw v) = true <-> v mod 2 = 1) /\
  raw_from_timestamp (timestamp_from_raw v) = v.
Proof.
  intros v Hv. unfold u32 in Hv. unfold timestamp_from_raw. cbv zeta. rewrite land1. rewrite Z.shiftr_div_pow2 by lia. change (2 ^ 1) with 2.
  pose proof (Z.mod_pos_bound v 2 ltac:(lia)). pose proof (Z.div_mod v 2 ltac:(lia)).
  assert (Hs : Z.shiftl (v / 2) 1 mod 4294967296 = 2 * (v / 2)) by (rewrite Z.shiftl_mul_pow2 by lia; rewrite Z.mod_small; lia).
  destruct (Z.eqb_spec (v mod 2) 1) as [E|E]; cbn [ts_units ts_absolute raw_from_timestamp]; rewrite Hs; (split; [reflexivity|]).
  - split; [split; auto|]. rewrite lor1 by (apply Z.div_pos; lia). lia.
  - split; [split; [discriminate|contradiction]|]. lia.
Qed.
(*@C21
And the other way, for every number of units that fits 31 bits: the raw value is even exactly for relative time stamps and both units and kind come back. *)
Lemma C21_units_round_trip_pf : forall u n, 0 <= u < 2 ^ 31 ->
  raw_from_timestamp (Absolute u n) = 2 * u + 1 /\ raw_from_timestamp (Relative u n) = 2 * u /\
  timestamp_from_raw (raw_from_timestamp (new_absolute_from_units u)) = new_absolute_from_units u /\
  timestamp_from_raw (raw_from_timestamp (new_relative_from_units u)) = new_relative_from_units u.
Proof.
  intros u n Hu. change (2 ^ 31) with 2147483648 in Hu.
  assert (Hs : Z.shiftl u 1 mod 4294967296 = 2 * u) by (rewrite Z.shiftl_mul_pow2 by lia; rewrite Z.mod_small; lia).
  assert (Ha : forall n, raw_from_timestamp (Absolute u n) = 2 * u + 1) by (intros; cbn [raw_from_timestamp]; rewrite Hs; apply lor1; lia).
  assert (Hr : forall n, raw_from_timestamp (Relative u n) = 2 * u) by (intros; exact Hs).
  split; [apply Ha|]. split; [apply Hr|]. unfold new_absolute_from_units, new_relative_from_units. rewrite Ha, Hr.
  unfold timestamp_from_raw. cbv zeta. rewrite !land1, !Z.shiftr_div_pow2 by lia. change (2 ^ 1) with 2.
  replace ((2 * u + 1) mod 2) with 1 by (apply Z.mod_unique with u; lia). replace ((2 * u) mod 2) with 0 by (apply Z.mod_unique with u; lia).
  replace ((2 * u + 1) / 2) with u by (apply Z.div_unique with 1; lia). replace (2 * u / 2) with u by (apply Z.div_unique with 0; lia).
  split; reflexivity.
Qed.
Lemma rne_ge n d q : 0 < d -> q * d <= n -> q <= rne n d.
Proof.
  intros Hd H. unfold rne. cbv zeta. assert (q <= n / d) by (apply Z.div_le_lower_bound; lia).
  destruct (2 * (n mod d) <? d); [lia|]. destruct (d <? 2 * (n mod d)); [lia|]. destruct (Z.even (n / d)); lia.
Qed.
Lemma rne24_ge_pow n k : 24 <= k -> 2 ^ k <= n -> 2 ^ k <= rne24 n.
Proof.
  intros Hk H. unfold rne24. assert (H24 : 2 ^ 24 <= 2 ^ k) by (apply Z.pow_le_mono_r; lia). change (2 ^ 24) with 16777216 in H24.
  destruct (Z.ltb_spec n 16777216); [lia|]. cbv zeta.
  assert (Hl : k <= Z.log2 n) by (apply Z.log2_le_pow2; lia).
  set (e := Z.log2 n - 23). assert (Hp : 0 < 2 ^ e) by (apply Z.pow_pos_nonneg; lia).
  pose proof (Z.log2_spec n ltac:(lia)) as [Hn _].
  assert (Hq : 2 ^ 23 <= rne n (2 ^ e)).
  { apply rne_ge; [exact Hp|]. rewrite <- Z.pow_add_r by lia. replace (23 + e) with (Z.log2 n) by lia. exact Hn. }
  assert (2 ^ 23 * 2 ^ e <= rne n (2 ^ e) * 2 ^ e) by nia. rewrite <- Z.pow_add_r in H1 by lia.
  replace (23 + e) with (Z.log2 n) in H1 by lia. assert (2 ^ k <= 2 ^ Z.log2 n) by (apply Z.pow_le_mono_r; lia). lia.
Qed.
(*@C21
Refutation of the nanosecond field: one unit (3600 s / 2^31, about 1676 ns) is converted to 128571432, and every time
stamp of 34 units and more (about 57 microseconds past the hour) to the largest u32. *)
Lemma C21_nanoseconds_refuted_pf : ts_nanos (timestamp_from_raw 2) = 128571432 /\
  forall v, u32 v -> 68 <= v -> ts_nanos (timestamp_from_raw v) = 4294967295.
Proof.
  split; [reflexivity|]. intros v Hv H. unfold u32 in Hv. unfold timestamp_from_raw. cbv zeta.
  assert (E : dis_time_units_to_nanoseconds (Z.shiftr v 1) = 4294967295); [|rewrite E; destruct (Z.land v 1 =? 1); reflexivity].
  rewrite Z.shiftr_div_pow2 by lia. change (2 ^ 1) with 2. assert (Hu : 34 <= v / 2) by (apply Z.div_le_lower_bound; lia).
  unfold dis_time_units_to_nanoseconds. change NANOSECONDS_PER_TIME_UNIT with 128571432.
  assert (H34 : 34 <= rne24 (v / 2)).
  { destruct (Z.ltb_spec (v / 2) 16777216) as [Hs|Hs].
    - unfold rne24. destruct (Z.ltb_spec (v / 2) 16777216); lia.
    - pose proof (rne24_ge_pow (v / 2) 24 ltac:(lia) ltac:(change (2 ^ 24) with 16777216; lia)) as H1. change (2 ^ 24) with 16777216 in H1. lia. }
  pose proof (rne24_ge_pow (rne24 (v / 2) * 128571432) 32 ltac:(lia) ltac:(change (2 ^ 32) with 4294967296; lia)) as H2.
  change (2 ^ 32) with 4294967296 in H2. unfold sat32. lia.
Qed.
(*@C21
Refutation of the conversion from seconds: half an hour is 14 units instead of 2^30, and a count of seconds that passes 4294 panics in a debug build. *)
Lemma C21_seconds_refuted_pf : new_absolute_from_secs Checked 1800 = Some (Absolute 14 1800000000) /\
  forall s, 4294 < s -> new_absolute_from_secs Checked s = None.
Proof.
  split; [vm_compute; reflexivity|]. intros s H. unfold new_absolute_from_secs, seconds_to_nanoseconds. cbv zeta.
  destruct (Z.ltb_spec (s * 1000000) 4294967296); [lia|reflexivity].
Qed.
(*@ex*)
Example C21_ex : ts_units (timestamp_from_raw 0xFFFFFFFF) = 0x7FFFFFFF /\ ts_absolute (timestamp_from_raw 0xFFFFFFFE) = false.
Proof. split; vm_compute; reflexivity. Qed.

(** ** C22 *)
(** Specification: decimal numerals, and tokens joined by colons. *)
Definition digit (c : Z) : Prop := 48 <= c <= 57.
Definition dec_value (ds : list Z) : Z := fold_left (fun a c => a * 10 + (c - 48)) ds 0.
(** a numeral: one or more digits, leading zeros allowed, after an optional plus sign *)
Definition numeral (v : Z) (s : list Z) : Prop :=
  exists ds, (s = ds \/ s = 43 :: ds) /\ ds <> [] /\ Forall digit ds /\ dec_value ds = v.
Fixpoint join (ts : list (list Z)) : list Z :=
  match ts with [] => [] | [t] => t | t :: r => t ++ 58 :: join r end.

Lemma dec_value_ge ds a : Forall digit ds -> 0 <= a -> a <= fold_left (fun a c => a * 10 + (c - 48)) ds a.
Proof.
  revert a. induction ds as [|c ds IH]; intros a H Ha; [cbn; lia|]. inversion H; subst. unfold digit in *. cbn [fold_left].
  specialize (IH (a * 10 + (c - 48)) H3 ltac:(lia)). lia.
Qed.
Lemma parse_digits_iff max s : forall acc v, 0 <= acc <= max ->
  (parse_digits max acc s = Some v <-> Forall digit s /\ fold_left (fun a c => a * 10 + (c - 48)) s acc = v /\ v <= max).
Proof.
  induction s as [|c s IH]; intros acc v Ha; cbn [parse_digits fold_left].
  - split; [intros H; assert (acc = v) by congruence; subst; repeat split; [constructor|lia]|]. intros (_ & -> & _). reflexivity.
  - destruct (Z.leb_spec 48 c); destruct (Z.leb_spec c 57); cbn [andb].
    + destruct (Z.ltb_spec max (acc * 10)).
      * split; [discriminate|]. intros (H3 & H4 & H5). inversion H3; subst. pose proof (dec_value_ge s (acc * 10 + (c - 48)) H8 ltac:(lia)). lia.
      * destruct (Z.ltb_spec max (acc * 10 + (c - 48))).
        -- split; [discriminate|]. intros (H4 & H5 & H6). inversion H4; subst. pose proof (dec_value_ge s (acc * 10 + (c - 48)) H9 ltac:(lia)). lia.
        -- rewrite IH by lia. split; intros (A & B & C); (split; [|split; assumption]); [constructor; [unfold digit; lia|exact A]|inversion A; assumption].
    + split; [discriminate|]. intros (H3 & _). inversion H3; subst. unfold digit in *; lia.
    + split; [discriminate|]. intros (H3 & _). inversion H3; subst. unfold digit in *; lia.
    + split; [discriminate|]. intros (H3 & _). inversion H3; subst. unfold digit in *; lia.
Qed.
Lemma parse_uint_iff max s v : 0 <= max -> (parse_uint max s = Some v <-> numeral v s /\ v <= max).
Proof.
  intros Hm.
  assert (Hplain : forall t, t <> [] -> (forall t', t <> 43 :: t') -> (parse_digits max 0 t = Some v <-> numeral v t /\ v <= max)).
  { intros t Hne Hp. rewrite parse_digits_iff by lia. split.
    - intros (A & B & C). split; [exists t|exact C]. split; [now left|auto].
    - intros ((ds & [->| ->] & _ & A & B) & C); [auto|]. exfalso. eapply Hp. reflexivity. }
  assert (Hplus : forall t, t <> [] -> (parse_digits max 0 t = Some v <-> numeral v (43 :: t) /\ v <= max)).
  { intros t Hne. rewrite parse_digits_iff by lia. split.
    - intros (A & B & C). split; [exists t|exact C]. split; [now right|auto].
    - intros ((ds & [E|E] & _ & A & B) & C).
      + subst ds. inversion A; subst. unfold digit in *. lia.
      + assert (t = ds) as -> by congruence. auto. }
  unfold parse_uint. destruct s as [|c [|c2 t]].
  - split; [discriminate|]. intros ((ds & [E|E] & Hne & _) & _); [now subst|discriminate].
  - destruct (Z.eqb_spec c 43) as [->|Hc]; cbn [orb].
    + split; [discriminate|]. intros ((ds & [E|E] & Hne & A & _) & _); [subst; inversion A; unfold digit in *; lia|assert (ds = []) by congruence; contradiction].
    + destruct (Z.eqb_spec c 45) as [->|Hc2].
      * split; [discriminate|]. intros ((ds & [E|E] & Hne & A & _) & _); [subst; inversion A; unfold digit in *; lia|discriminate].
      * apply Hplain; [discriminate|]. intros t' E. congruence.
  - destruct (Z.eqb_spec c 43) as [->|Hc]; [apply Hplus; discriminate|]. apply Hplain; [discriminate|]. intros t' E. congruence.
Qed.
Lemma split_colon_spec s : join (split_colon s) = s /\ Forall (Forall (fun c => c <> 58)) (split_colon s) /\ split_colon s <> [].
Proof.
  induction s as [|c s (J & F & N)]; [repeat split; [constructor; constructor|discriminate]|]. cbn [split_colon].
  destruct (split_colon s) as [|w ws] eqn:E; [contradiction|]. destruct (Z.eqb_spec c 58) as [->|Hc].
  - split; [cbn [join app]; now rewrite <- J at 1|]. split; [constructor; [constructor|exact F]|discriminate].
  - inversion F; subst. split; [|split; [constructor; [constructor; auto|assumption]|discriminate]].
    destruct ws; reflexivity.
Qed.
Lemma split_colon_app w s : Forall (fun c => c <> 58) w -> split_colon (w ++ 58 :: s) = w :: split_colon s.
Proof.
  intros H. induction H as [|c w Hc H IH]; cbn [app split_colon].
  - destruct (split_colon_spec s) as (_ & _ & N). destruct (split_colon s); [contradiction|reflexivity].
  - rewrite IH. destruct (Z.eqb_spec c 58); [contradiction|reflexivity].
Qed.
Lemma split_colon_single w : Forall (fun c => c <> 58) w -> split_colon w = [w].
Proof. intros H. induction H as [|c w Hc H IH]; [reflexivity|]. cbn [split_colon]. rewrite IH. destruct (Z.eqb_spec c 58); [contradiction|reflexivity]. Qed.
Lemma split_join ts : ts <> [] -> Forall (Forall (fun c => c <> 58)) ts -> split_colon (join ts) = ts.
Proof.
  intros Hne H. induction H as [|t ts Ht H IH]; [contradiction|]. destruct ts as [|t2 ts]; [now apply split_colon_single|].
  cbn [join]. rewrite split_colon_app by exact Ht. f_equal. apply IH. discriminate.
Qed.
Lemma numeral_no_colon v s : numeral v s -> Forall (fun c => c <> 58) s.
Proof.
  intros (ds & [->| ->] & _ & H & _); [|constructor; [lia|]]; eapply Forall_impl; try exact H; unfold digit; cbn; lia.
Qed.
Lemma fold_app_digit ds c : dec_value (ds ++ [c]) = dec_value ds * 10 + (c - 48).
Proof. unfold dec_value. rewrite fold_left_app. reflexivity. Qed.
Lemma show_dec_digits f : forall n, 0 <= n < 10 ^ Z.of_nat f -> (0 < f)%nat ->
  show_dec f n <> [] /\ Forall digit (show_dec f n) /\ dec_value (show_dec f n) = n.
Proof.
  induction f as [|f IH]; intros n Hn Hf; [lia|]. cbn [show_dec]. destruct (Z.ltb_spec n 10).
  - split; [discriminate|]. split; [repeat constructor; lia|unfold dec_value; cbn [fold_left]; lia].
  - rewrite Nat2Z.inj_succ, Z.pow_succ_r in Hn by lia. pose proof (Z.div_mod n 10 ltac:(lia)). pose proof (Z.mod_pos_bound n 10 ltac:(lia)).
    destruct f as [|f]; [cbn in Hn; lia|].
    destruct (IH (n / 10)) as (Hne & Hdig & Hv); [split; [apply Z.div_pos; lia|apply Z.div_lt_upper_bound; lia]|lia|].
    split; [now destruct (show_dec (S f) (n / 10))|].
    split; [apply Forall_app; split; [exact Hdig|repeat constructor; lia]|]. rewrite fold_app_digit, Hv. lia.
Qed.
Lemma display_numeral n : 0 <= n < 100000 -> numeral n (display n).
Proof. intros H. exists (display n). split; [now left|]. apply show_dec_digits; [change (10 ^ Z.of_nat 5) with 100000; lia|lia]. Qed.
Lemma show7_join a b c d e f g : show7 a b c d e f g = join (map display [a; b; c; d; e; f; g]).
Proof. reflexivity. Qed.

(** seven colon-separated numerals with the given values *)
Definition seven_numerals (a b c d e f g : Z) (s : list Z) : Prop :=
  exists sa sb sc sd se sf sg, s = join [sa; sb; sc; sd; se; sf; sg] /\
  numeral a sa /\ numeral b sb /\ numeral c sc /\ numeral d sd /\ numeral e se /\ numeral f sf /\ numeral g sg.
Lemma parse7_iff {A} (k : Z -> Z -> Z -> Z -> Z -> Z -> Z -> A) s x : parse7 k s = Some x <->
  exists a b c d e f g, x = k a b c d e f g /\ seven_numerals a b c d e f g s /\
    a <= 255 /\ b <= 255 /\ c <= 65535 /\ d <= 255 /\ e <= 255 /\ f <= 255 /\ g <= 255.
Proof.
  split.
  - unfold parse7. destruct (split_colon_spec s) as (J & _ & _).
    destruct (split_colon s) as [|sa [|sb [|sc [|sd [|se [|sf [|sg [|? ?]]]]]]]]; try discriminate.
    destruct (parse_uint 255 sa) eqn:Ea; [|discriminate]. destruct (parse_uint 255 sb) eqn:Eb; [|discriminate].
    destruct (parse_uint 65535 sc) eqn:Ec; [|discriminate]. destruct (parse_uint 255 sd) eqn:Ed; [|discriminate].
    destruct (parse_uint 255 se) eqn:Ee; [|discriminate]. destruct (parse_uint 255 sf) eqn:Ef; [|discriminate]. destruct (parse_uint 255 sg) eqn:Eg; [|discriminate].
    apply parse_uint_iff in Ea, Eb, Ec, Ed, Ee, Ef, Eg; try lia.
    destruct Ea, Eb, Ec, Ed, Ee, Ef, Eg. intros E. do 7 eexists. split; [symmetry; injection E; intros ->; reflexivity|].
    split; [|lia || auto 10]. exists sa, sb, sc, sd, se, sf, sg. rewrite J. auto 10.
  - intros (a & b & c & d & e & f & g & -> & (sa & sb & sc & sd & se & sf & sg & -> & Ha & Hb & Hc & Hd & He & Hf & Hg) & La & Lb & Lc & Ld & Le & Lf & Lg).
    unfold parse7. rewrite split_join; [|discriminate|repeat constructor; eapply numeral_no_colon; eassumption].
    rewrite (proj2 (parse_uint_iff 255 sa a ltac:(lia))) by auto. rewrite (proj2 (parse_uint_iff 255 sb b ltac:(lia))) by auto.
    rewrite (proj2 (parse_uint_iff 65535 sc c ltac:(lia))) by auto. rewrite (proj2 (parse_uint_iff 255 sd d ltac:(lia))) by auto.
    rewrite (proj2 (parse_uint_iff 255 se e ltac:(lia))) by auto. rewrite (proj2 (parse_uint_iff 255 sf f ltac:(lia))) by auto.
    rewrite (proj2 (parse_uint_iff 255 sg g ltac:(lia))) by auto. reflexivity.
Qed.
Lemma show7_numerals a b c d e f g : u8 a -> u8 b -> u16 c -> u8 d -> u8 e -> u8 f -> u8 g -> seven_numerals a b c d e f g (show7 a b c d e f g).
Proof.
  unfold u8, u16. intros. exists (display a), (display b), (display c), (display d), (display e), (display f), (display g). split; [reflexivity|].
  repeat split; apply display_numeral; lia.
Qed.
(*@C22
The text form of an entity type is its seven fields as decimal numerals separated by colons, and parsing the text returns the entity type. *)
Lemma C22_entity_type_round_trip_pf : forall t, wf_EntityType t ->
  seven_numerals (et_kind t) (et_domain t) (et_country t) (et_category t) (et_subcategory t) (et_specific t) (et_extra t) (entity_type_to_string t) /\
  entity_type_from_str (entity_type_to_string t) = Some t.
Proof.
  intros [a b c d e f g]. unfold wf_EntityType. cbn [et_kind et_domain et_country et_category et_subcategory et_specific et_extra]. intros (Ha & Hb & Hc & Hd & He & Hf & Hg).
  pose proof (show7_numerals a b c d e f g Ha Hb Hc Hd He Hf Hg) as H. split; [exact H|].
  unfold entity_type_from_str. apply parse7_iff. unfold u8, u16 in *. exists a, b, c, d, e, f, g. split; [reflexivity|]. split; [exact H|lia].
Qed.
(*@C22
Parsing accepts exactly the texts of seven colon-separated numerals whose values fit the fields, whatever the text. *)
Lemma C22_entity_type_accepts_pf : forall s t, entity_type_from_str s = Some t <->
  seven_numerals (et_kind t) (et_domain t) (et_country t) (et_category t) (et_subcategory t) (et_specific t) (et_extra t) s /\
  et_kind t <= 255 /\ et_domain t <= 255 /\ et_country t <= 65535 /\ et_category t <= 255 /\ et_subcategory t <= 255 /\ et_specific t <= 255 /\ et_extra t <= 255.
Proof.
  intros s t. unfold entity_type_from_str. rewrite parse7_iff. split.
  - intros (a & b & c & d & e & f & g & -> & H & L). cbn [et_kind et_domain et_country et_category et_subcategory et_specific et_extra]. auto.
  - intros [H L]. destruct t as [a b c d e f g]. cbn [et_kind et_domain et_country et_category et_subcategory et_specific et_extra] in *. exists a, b, c, d, e, f, g. auto.
Qed.
(*@C22
Every parsed entity type is in range, and two entity types have the same text only if they are equal. *)
Lemma C22_entity_type_injective_pf : (forall s t, entity_type_from_str s = Some t -> wf_EntityType t) /\
  (forall t1 t2, wf_EntityType t1 -> wf_EntityType t2 -> entity_type_to_string t1 = entity_type_to_string t2 -> t1 = t2).
Proof.
  split.
  - intros s t H. apply C22_entity_type_accepts_pf in H. destruct H as ((? & ? & ? & ? & ? & ? & ? & _ & Ha & Hb & Hc & Hd & He & Hf & Hg) & L).
    assert (Hn : forall v s, numeral v s -> 0 <= v).
    { intros v s' (ds & _ & _ & Hd' & <-). apply (dec_value_ge ds 0 Hd'). lia. }
    apply Hn in Ha, Hb, Hc, Hd, He, Hf, Hg. unfold wf_EntityType, u8, u16. lia.
  - intros t1 t2 H1 H2 E. apply C22_entity_type_round_trip_pf in H1, H2. destruct H1 as [_ H1], H2 as [_ H2]. congruence.
Qed.
(*@C22
The same for aggregate types. *)
Lemma C22_aggregate_type_round_trip_pf : forall t, wf_AggregateType t ->
  seven_numerals (ag_kind t) (ag_domain t) (ag_country t) (ag_category t) (ag_subcategory t) (ag_specific t) (ag_extra t) (aggregate_type_to_string t) /\
  aggregate_type_from_str (aggregate_type_to_string t) = Some t.
Proof.
  intros [a b c d e f g]. unfold wf_AggregateType. cbn [ag_kind ag_domain ag_country ag_category ag_subcategory ag_specific ag_extra]. intros (Ha & Hb & Hc & Hd & He & Hf & Hg).
  pose proof (show7_numerals a b c d e f g Ha Hb Hc Hd He Hf Hg) as H. split; [exact H|].
  unfold aggregate_type_from_str. apply parse7_iff. unfold u8, u16 in *. exists a, b, c, d, e, f, g. split; [reflexivity|]. split; [exact H|lia].
Qed.
(*@C22
Acceptance for aggregate types. *)
Lemma C22_aggregate_type_accepts_pf : forall s t, aggregate_type_from_str s = Some t <->
  seven_numerals (ag_kind t) (ag_domain t) (ag_country t) (ag_category t) (ag_subcategory t) (ag_specific t) (ag_extra t) s /\
  ag_kind t <= 255 /\ ag_domain t <= 255 /\ ag_country t <= 65535 /\ ag_category t <= 255 /\ ag_subcategory t <= 255 /\ ag_specific t <= 255 /\ ag_extra t <= 255.
Proof.
  intros s t. unfold aggregate_type_from_str. rewrite parse7_iff. split.
  - intros (a & b & c & d & e & f & g & -> & H & L). cbn [ag_kind ag_domain ag_country ag_category ag_subcategory ag_specific ag_extra]. auto.
  - intros [H L]. destruct t as [a b c d e f g]. cbn [ag_kind ag_domain ag_country ag_category ag_subcategory ag_specific ag_extra] in *. exists a, b, c, d, e, f, g. auto.
Qed.
Lemma display_injective a b : 0 <= a < 100000 -> 0 <= b < 100000 -> display a = display b -> a = b.
Proof.
  intros Ha Hb E. destruct (show_dec_digits 5 a ltac:(change (10 ^ Z.of_nat 5) with 100000; lia) ltac:(lia)) as (_ & _ & Va).
  destruct (show_dec_digits 5 b ltac:(change (10 ^ Z.of_nat 5) with 100000; lia) ltac:(lia)) as (_ & _ & Vb). unfold display in E. congruence.
Qed.
(*@C22
The text form of an entity identifier is its site, application and entity numbers as decimal numerals joined by colons, and two identifiers have the
same text only if they are equal: it can serve as a key. *)
Lemma C22_entity_id_text_pf : (forall e, wf_EntityId e -> exists s a n, entity_id_to_string e = join [s; a; n] /\
    numeral (sa_site (ei_addr e)) s /\ numeral (sa_app (ei_addr e)) a /\ numeral (ei_id e) n) /\
  (forall e1 e2, wf_EntityId e1 -> wf_EntityId e2 -> entity_id_to_string e1 = entity_id_to_string e2 -> e1 = e2).
Proof.
  assert (R : forall e, wf_EntityId e -> (0 <= sa_site (ei_addr e) < 100000) /\ (0 <= sa_app (ei_addr e) < 100000) /\ (0 <= ei_id e < 100000)).
  { intros e ((H1 & H2) & H3). unfold u16 in *. lia. }
  assert (J : forall e, entity_id_to_string e = join (map display [sa_site (ei_addr e); sa_app (ei_addr e); ei_id e])) by reflexivity.
  split.
  - intros e W. destruct (R e W) as (H1 & H2 & H3). do 3 eexists. split; [apply J|]. split; [now apply display_numeral|]. split; now apply display_numeral.
  - intros e1 e2 W1 W2 E. destruct (R e1 W1) as (H1 & H2 & H3), (R e2 W2) as (K1 & K2 & K3). rewrite !J in E. apply (f_equal split_colon) in E.
    assert (N : forall e, wf_EntityId e -> Forall (Forall (fun c => c <> 58)) (map display [sa_site (ei_addr e); sa_app (ei_addr e); ei_id e])).
    { intros e W. destruct (R e W) as (? & ? & ?). repeat constructor; eapply numeral_no_colon, display_numeral; assumption. }
    rewrite !split_join in E by (try discriminate; apply N; assumption). cbn [map] in E. injection E as E1 E2 E3.
    apply display_injective in E1, E2, E3; try assumption. destruct e1 as [[s1 a1] i1], e2 as [[s2 a2] i2]. cbn in *. congruence.
Qed.
(*@C39
A marking made from text by [from_str] is never too long for its record: serialisation of it does not fail; longer texts are rejected. *)
Lemma C39_from_str_pf : forall n s, 0 <= n ->
  (zlen s <= n -> exists x bs, marking_from_str n s = Some x /\ mk_string x = s /\ w_marking n x = WOk bs (n + 1) /\ zlen bs = n + 1) /\
  (n < zlen s -> marking_from_str n s = None).
Proof.
  intros n s Hn. unfold marking_from_str. split; intros H; destruct (Z.leb_spec (zlen s) n); try lia; [|reflexivity].
  destruct (w_marking_len n (MkMarking 1 s) H) as (bs & E & L). exists (MkMarking 1 s), bs. auto.
Qed.
Definition octets (s : string) : list Z := map (fun c => Z.of_nat (nat_of_ascii c)) (list_ascii_of_string s).
(*@ex*)
Example C22_ex : entity_id_to_string (MkEntityId (MkSimulationAddress 1 23) 65535) = octets "1:23:65535" /\
  entity_type_to_string (MkEntityType 1 2 225 1 3 0 255) = octets "1:2:225:1:3:0:255" /\
  entity_type_from_str (octets "1:2:225:1:3:0:255") = Some (MkEntityType 1 2 225 1 3 0 255) /\
  entity_type_from_str (octets "+1:002:225:1:3:0:255") = Some (MkEntityType 1 2 225 1 3 0 255) /\
  entity_type_from_str (octets "1:2:225:1:3:0:256") = None /\ entity_type_from_str (octets "1:2:225:1:3:0") = None /\
  entity_type_from_str (octets "1:2:225:1:3:0:") = None /\ entity_type_from_str (octets "1:2:225:1:3:0:-1") = None.
Proof. repeat split; vm_compute; reflexivity. Qed.

(** Lemmas on words made of bit ranges, for the IFF status records. *)
From Verif Require Import Base DisCommon IffWords SpecIffWords.

Fixpoint enc (n : Z) (L : list (Z * Z)) (xs : list Z) : Z :=
  match L, xs with p :: L', x :: xs' => Z.lor (Z.shiftl x (n - 1 - snd p)) (enc n L' xs') | _, _ => 0 end.
Fixpoint lay (n lo : Z) (L : list (Z * Z)) : Prop :=
  match L with [] => True | p :: L' => lo <= fst p /\ fst p <= snd p /\ snd p < n /\ lay n (snd p + 1) L' end.
Lemma high x w k : 0 <= x < 2 ^ w -> w <= k -> Z.testbit x k = false.
Proof. intros B K. destruct (Z.eq_dec x 0) as [-> | N]; [apply Z.bits_0|]. assert (0 <= w). { destruct (Z.lt_ge_cases w 0); [rewrite Z.pow_neg_r in B by lia; lia|lia]. }
  apply Z.bits_above_log2; [lia|]. apply Z.log2_lt_pow2; [lia|]. apply Z.lt_le_trans with (2 ^ w); [lia|]. apply Z.pow_le_mono_r; lia. Qed.
Lemma below v n : 0 <= n -> 0 <= v -> (forall k, n <= k -> Z.testbit v k = false) -> v < 2 ^ n.
Proof. intros N V H. destruct (Z.lt_ge_cases v (2 ^ n)) as [| G]; [easy|]. exfalso. assert (0 < 2 ^ n) by (apply Z.pow_pos_nonneg; lia). assert (n <= Z.log2 v) by (apply Z.log2_le_pow2; lia).
  specialize (H _ H1). rewrite Z.bit_log2 in H by lia. discriminate. Qed.
Lemma bits_testbit n v p i : 0 <= i -> snd p < n -> fst p <= snd p -> Z.testbit (bits n v p) i = (i <? snd p - fst p + 1) && Z.testbit v (i + (n - 1 - snd p)).
Proof. intros I A B. unfold bits. destruct (Z.ltb_spec i (snd p - fst p + 1)) as [L | L]; cbn [andb].
  - rewrite Z.mod_pow2_bits_low by lia. apply Z.div_pow2_bits; lia.
  - apply Z.mod_pow2_bits_high. lia. Qed.
Lemma bits_range n v p : fst p <= snd p -> 0 <= bits n v p < 2 ^ (snd p - fst p + 1).
Proof. intros. unfold bits. apply Z.mod_pos_bound. apply Z.pow_pos_nonneg; lia. Qed.
Lemma enc_pos n L xs : room L xs -> 0 <= enc n L xs.
Proof. induction 1; cbn [enc]; [lia|]. apply Z.lor_nonneg. split; [apply Z.shiftl_nonneg; lia|easy]. Qed.
Lemma enc_high n L : forall lo xs k, 0 <= lo <= n -> lay n lo L -> room L xs -> n - lo <= k -> Z.testbit (enc n L xs) k = false.
Proof. induction L as [|[a b] L IH]; intros lo xs k Lo LY R K; destruct xs as [|x xs]; inversion R; subst; cbn [enc]; [apply Z.bits_0|].
  cbn [lay fst snd] in *. rewrite Z.lor_spec, Z.shiftl_spec by lia. rewrite (IH (b + 1)) by (try easy; lia). rewrite (high x (b - a + 1)) by lia. easy. Qed.
Lemma dec_enc_gen n L : forall lo xs, 0 <= lo <= n -> lay n lo L -> room L xs -> map (bits n (enc n L xs)) L = xs.
Proof. induction L as [|[a b] L IH]; intros lo xs Lo LY R; destruct xs as [|x xs]; inversion R; subst; cbn [map]; [easy|]. cbn [lay fst snd] in *. f_equal.
  - apply Z.bits_inj'. intros i I. rewrite bits_testbit by (cbn; lia). cbn [enc fst snd]. rewrite Z.lor_spec, Z.shiftl_spec by lia. rewrite (enc_high n L (b + 1)) by (try easy; lia).
    rewrite orb_false_r. replace (i + (n - 1 - b) - (n - 1 - b)) with i by lia. destruct (Z.ltb_spec i (b - a + 1)); [easy|]. cbn [andb]. symmetry. eapply high; [eassumption|lia].
  - rewrite <- (IH (b + 1) xs) at 2 by (try easy; lia). clear R H4 IH. revert LY. assert (forall lo', lo' = b + 1 -> lay n lo' L -> Forall (fun p => b < fst p <= snd p /\ snd p < n) L) as Q.
    { clear. intros lo' E. assert (b < lo') as G by lia. clear E. revert lo' G. induction L as [|p L IH]; intros lo' G; constructor; cbn [lay] in H; [lia|]. apply (IH (snd p + 1)); [lia|apply H]. }
    intros LY. specialize (Q _ eq_refl (proj2 (proj2 (proj2 LY)))). apply map_ext_in. intros p I. rewrite Forall_forall in Q. specialize (Q _ I). cbn [enc snd].
    apply Z.bits_inj'. intros i Hi. rewrite !bits_testbit by lia. destruct (Z.ltb_spec i (snd p - fst p + 1)); [|easy]. cbn [andb]. rewrite Z.lor_spec, Z.shiftl_spec by lia. rewrite Z.testbit_neg_r by lia. easy. Qed.
Lemma says_enc n L xs : 0 <= n -> lay n 0 L -> room L xs -> says n L (enc n L xs) xs.
Proof. intros N LY R. split; [|split].
  - split; [now apply enc_pos|]. apply below; [lia|now apply enc_pos|]. intros k K. apply (enc_high n L 0); [lia|easy|easy|lia].
  - apply (dec_enc_gen n L 0); [lia|easy|easy].
  - intros i I F. apply Z.bits_inj'. intros k K. rewrite bits_testbit by (cbn; lia). rewrite Z.bits_0. cbn [fst snd]. destruct (Z.ltb_spec k (i - i + 1)); [|easy]. cbn [andb].
    replace (k + (n - 1 - i)) with (n - 1 - i) by lia. clear k K H. revert LY. generalize 0 at 1. revert xs R F. induction L as [|[a b] L IH]; intros xs R F lo LY; destruct xs as [|x xs]; inversion R; subst; cbn [enc]; [apply Z.bits_0|].
    inversion F as [|? ? NC F']; subst. cbn [lay fst snd] in *. unfold covered in NC. cbn [fst snd] in NC. rewrite Z.lor_spec, Z.shiftl_spec by lia. rewrite (IH xs H4 F' (b + 1)) by easy. rewrite orb_false_r.
    destruct (Z.lt_ge_cases b i); [apply Z.testbit_neg_r; lia|]. eapply high; [eassumption|lia]. Qed.
Lemma room_bits n v L : forall lo, lay n lo L -> room L (map (bits n v) L).
Proof. induction L as [|p L IH]; intros lo LY; cbn [map]; constructor; cbn [lay] in LY; [apply bits_range; lia|]. apply (IH (snd p + 1)). apply LY. Qed.
Lemma enc_mask n v L : forall lo, lay n lo L -> enc n L (map (bits n v) L) = Z.land v (enc n L (map (fun p => 2 ^ (snd p - fst p + 1) - 1) L)).
Proof. induction L as [|p L IH]; intros lo LY; cbn [map enc]; [now rewrite Z.land_0_r|]. cbn [lay] in LY. rewrite Z.land_lor_distr_r. f_equal; [|apply (IH (snd p + 1)); apply LY].
  apply Z.bits_inj'. intros i I. rewrite Z.land_spec, !Z.shiftl_spec by lia. destruct (Z.lt_ge_cases i (n - 1 - snd p)).
  - rewrite !(Z.testbit_neg_r _ (i - (n - 1 - snd p))) by lia. now rewrite andb_false_r.
  - rewrite bits_testbit by lia. replace (i - (n - 1 - snd p) + (n - 1 - snd p)) with i by lia. replace (2 ^ (snd p - fst p + 1) - 1) with (Z.ones (snd p - fst p + 1)) by (rewrite Z.ones_equiv; lia).
    rewrite Z.testbit_ones_nonneg by lia. apply andb_comm. Qed.

(** leaves of the readers *)
Lemma rd_leaf n v a b M s : s = n - 1 - b -> 0 <= s -> a <= b -> M = (2 ^ (b - a + 1) - 1) * 2 ^ s -> Z.shiftr (Z.land v M) s = bits n v (a, b).
Proof. intros -> S A ->. apply Z.bits_inj'. intros i I. rewrite bits_testbit by (cbn [fst snd]; lia). cbn [fst snd]. rewrite Z.shiftr_spec, Z.land_spec by lia.
  replace (2 ^ (b - a + 1) - 1) with (Z.ones (b - a + 1)) by (rewrite Z.ones_equiv; lia). rewrite <- Z.shiftl_mul_pow2 by lia. rewrite Z.shiftl_spec by lia.
  replace (i + (n - 1 - b) - (n - 1 - b)) with i by lia. rewrite Z.testbit_ones_nonneg by lia. apply andb_comm. Qed.
Lemma rd_leaf0 n v a b M : b = n - 1 -> a <= b -> M = 2 ^ (b - a + 1) - 1 -> Z.land v M = bits n v (a, b).
Proof. intros B A E. rewrite <- (rd_leaf n v a b M 0) by lia. now rewrite Z.shiftr_0_r. Qed.
Lemma as_u8_bits n v a b : a <= b <= a + 7 -> as_u8 (bits n v (a, b)) = bits n v (a, b).
Proof. intros. unfold as_u8. apply Z.mod_small. pose proof (bits_range n v (a, b) ltac:(cbn; lia)) as B. cbn [fst snd] in B. assert (2 ^ (b - a + 1) <= 2 ^ 8) by (apply Z.pow_le_mono_r; lia). change (2 ^ 8) with 256 in *. lia. Qed.
Lemma rd_fmt n v a s : s = n - 1 - a -> 0 <= s -> Z.land (as_u8 (Z.shiftr v s)) 1 = bits n v (a, a).
Proof. intros -> S. unfold as_u8, bits. cbn [fst snd]. replace (a - a + 1) with 1 by lia. change 1 with (Z.ones 1) at 2. rewrite Z.land_ones by lia. change (2 ^ 1) with 2. rewrite Z.shiftr_div_pow2 by lia.
  change 256 with (2 * 128). rewrite Z.rem_mul_r by lia. rewrite Z.mul_comm. rewrite Z_mod_plus_full. apply Z.mod_mod. lia. Qed.
Lemma rd_fmt0 n v a : 0 = n - 1 - a -> Z.land (as_u8 v) 1 = bits n v (a, a).
Proof. intros E. rewrite <- (rd_fmt n v a 0 E) by lia. now rewrite Z.shiftr_0_r. Qed.
Lemma as_low v M : 0 <= M < 256 -> as_u8 (Z.land v M) = Z.land v M.
Proof. intros H. unfold as_u8. change 256 with (2 ^ 8). rewrite <- Z.land_ones by lia. apply Z.bits_inj'. intros i I. rewrite !Z.land_spec. destruct (Z.lt_ge_cases i 8).
  - rewrite Z.ones_spec_low by lia. now rewrite andb_true_r.
  - rewrite (high M 8 i) by (change (2 ^ 8) with 256; lia). now rewrite !andb_false_r. Qed.
Lemma bit2 n v a : 0 <= bits n v (a, a) < 2.
Proof. pose proof (bits_range n v (a, a) ltac:(cbn; lia)) as B. cbn [fst snd] in B. replace (a - a + 1) with 1 in B by lia. exact B. Qed.
Lemma yes_bit n v a : yes (negb (bits n v (a, a) =? 0)) = bits n v (a, a).
Proof. pose proof (bit2 n v a). unfold yes. destruct (Z.eqb_spec (bits n v (a, a)) 0); cbn [negb]; lia. Qed.
Ltac code_bit n v a := pose proof (bit2 n v a) as B; match goal with |- ?c (?f ?k) = _ => unfold c, f end; destruct (Z.eqb_spec (bits n v (a, a)) 0); cbn; lia.
Lemma code_onoff_of n v a : code_onoff (onoff_of (bits n v (a, a))) = bits n v (a, a). Proof. code_bit n v a. Qed.
Lemma code_damage_of n v a : code_damage (damage_of (bits n v (a, a))) = bits n v (a, a). Proof. code_bit n v a. Qed.
Lemma code_malfunction_of n v a : code_malfunction (malfunction_of (bits n v (a, a))) = bits n v (a, a). Proof. code_bit n v a. Qed.
Lemma code_enabled_of n v a : code_enabled (enabled_of (bits n v (a, a))) = bits n v (a, a). Proof. code_bit n v a. Qed.
Lemma code_latlon_of n v a : code_latlon (latlon_of (bits n v (a, a))) = bits n v (a, a). Proof. code_bit n v a. Qed.
Lemma code_presence_of n v a : code_presence (presence_of (bits n v (a, a))) = bits n v (a, a). Proof. code_bit n v a. Qed.
Lemma code_squitter_of n v a : code_squitter (squitter_of (bits n v (a, a))) = bits n v (a, a). Proof. code_bit n v a. Qed.
Lemma code_capable_of n v a : code_capable (capable_of (bits n v (a, a))) = bits n v (a, a). Proof. code_bit n v a. Qed.
Lemma code_operational_of n v a : code_operational (operational_of (bits n v (a, a))) = bits n v (a, a). Proof. code_bit n v a. Qed.
Lemma code_layer_of n v a : code_layer (layer_of (bits n v (a, a))) = bits n v (a, a). Proof. code_bit n v a. Qed.
Lemma code_dap_of n v a : code_dap (dap_of (bits n v (a, a))) = bits n v (a, a). Proof. code_bit n v a. Qed.
Lemma cons_cong {A} (x y : A) l l' : x = y -> l = l' -> x :: l = y :: l'. Proof. congruence. Qed.
Ltac codes := rewrite ?yes_bit, ?code_onoff_of, ?code_damage_of, ?code_malfunction_of, ?code_enabled_of, ?code_latlon_of, ?code_presence_of, ?code_squitter_of, ?code_capable_of, ?code_operational_of, ?code_layer_of, ?code_dap_of.
Ltac rd_one := match goal with |- _ = bits ?n ?v (?a, ?b) =>
  first [ match goal with |- context [Z.shiftr (Z.land v ?M) ?s] => rewrite (rd_leaf n v a b M s) by (first [reflexivity | discriminate | lia]) end
        | match goal with |- context [Z.shiftr (as_u8 (Z.land v ?M)) ?s] => rewrite (as_low v M) by lia; rewrite (rd_leaf n v a b M s) by (first [reflexivity | discriminate | lia]) end
        | match goal with |- context [Z.land (as_u8 (Z.shiftr v ?s)) 1] => rewrite (rd_fmt n v a s) by (first [reflexivity | lia]) end
        | match goal with |- context [Z.land (as_u8 v) 1] => rewrite (rd_fmt0 n v a) by (first [reflexivity | lia]) end
        | match goal with |- context [Z.land v ?M] => rewrite (rd_leaf0 n v a b M) by (first [reflexivity | lia]) end ];
  rewrite ?(as_u8_bits n v a b) by lia; codes; reflexivity end.
(** leaves of the writers *)
Lemma shl8_ok x s t w : 0 <= x < 2 ^ w -> s = t -> 0 <= s -> 0 <= w -> s + w <= 8 -> shl8 x s = Z.shiftl x t.
Proof. intros B <- S W L. unfold shl8. apply Z.mod_small. rewrite Z.shiftl_mul_pow2 by lia. split; [apply Z.mul_nonneg_nonneg; lia|]. change 256 with (2 ^ 8). replace (2 ^ 8) with (2 ^ (8 - s) * 2 ^ s) by (rewrite <- Z.pow_add_r by lia; f_equal; lia).
  apply Z.mul_lt_mono_pos_r; [apply Z.pow_pos_nonneg; lia|]. apply Z.lt_le_trans with (2 ^ w); [lia|]. apply Z.pow_le_mono_r; lia. Qed.
Lemma shl16_ok x s t w : 0 <= x < 2 ^ w -> s = t -> 0 <= s -> 0 <= w -> s + w <= 16 -> shl16 x s = Z.shiftl x t.
Proof. intros B <- S W L. unfold shl16. apply Z.mod_small. rewrite Z.shiftl_mul_pow2 by lia. split; [apply Z.mul_nonneg_nonneg; lia|]. change 65536 with (2 ^ 16). replace (2 ^ 16) with (2 ^ (16 - s) * 2 ^ s) by (rewrite <- Z.pow_add_r by lia; f_equal; lia).
  apply Z.mul_lt_mono_pos_r; [apply Z.pow_pos_nonneg; lia|]. apply Z.lt_le_trans with (2 ^ w); [lia|]. apply Z.pow_le_mono_r; lia. Qed.
Lemma shl32_ok x s t w : 0 <= x < 2 ^ w -> s = t -> 0 <= s -> 0 <= w -> s + w <= 32 -> shl32 x s = Z.shiftl x t.
Proof. intros B <- S W L. unfold shl32. apply Z.mod_small. rewrite Z.shiftl_mul_pow2 by lia. split; [apply Z.mul_nonneg_nonneg; lia|]. change 4294967296 with (2 ^ 32). replace (2 ^ 32) with (2 ^ (32 - s) * 2 ^ s) by (rewrite <- Z.pow_add_r by lia; f_equal; lia).
  apply Z.mul_lt_mono_pos_r; [apply Z.pow_pos_nonneg; lia|]. apply Z.lt_le_trans with (2 ^ w); [lia|]. apply Z.pow_le_mono_r; lia. Qed.
Lemma shiftl_0 x t : 0 = t -> x = Z.shiftl x t. Proof. intros <-. now rewrite Z.shiftl_0_r. Qed.
Lemma lor_cong a a' b b' : a = a' -> b = b' -> Z.lor a b = Z.lor a' b'. Proof. congruence. Qed.
Lemma lor_lt a b n : 0 <= n -> 0 <= a < 2 ^ n -> 0 <= b < 2 ^ n -> 0 <= Z.lor a b < 2 ^ n.
Proof. intros N A B. split; [apply Z.lor_nonneg; lia|]. apply below; [lia|apply Z.lor_nonneg; lia|]. intros k K. rewrite Z.lor_spec, (high a n), (high b n) by lia. easy. Qed.
Ltac room_bounds H := unfold room in H; repeat (let H' := fresh "B" in inversion_clear H as [|? ? ? ? H' H0]; rename H0 into H; cbn [fst snd] in H').
Ltac wr_leaf := first
  [ eapply shl8_ok; [eassumption|reflexivity|lia|lia|lia] | eapply shl16_ok; [eassumption|reflexivity|lia|lia|lia] | eapply shl32_ok; [eassumption|reflexivity|lia|lia|lia] | apply shiftl_0; reflexivity ].

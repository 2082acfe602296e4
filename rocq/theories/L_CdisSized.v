(** * Lemmas for C23 and C24: integers whose number was overwritten *)
From Coq Require Import ZArith List Lia Bool.
From Verif Require Import Base CdisBase CdisSized SpecCdis SpecCdisSized L_CdisBits.
Import ListNotations. Open Scope Z_scope.

Lemma reads_back_inj {A} w (p : bitparser A) x y n : 0 <= n -> reads_back w p x n -> reads_back w p y n -> x = y.
Proof.
  intros Hn Hx Hy. set (buf := repeat false (Z.to_nat n)). assert (Hb : zlen buf = n) by (unfold buf, zlen; rewrite repeat_length; lia).
  destruct (Hx buf 0 ltac:(lia) ltac:(lia)) as (b1 & E1 & _ & P1). destruct (Hy buf 0 ltac:(lia) ltac:(lia)) as (b2 & E2 & _ & P2).
  rewrite E1 in E2. injection E2 as <-. rewrite P1 in P2. now injection P2.
Qed.
Lemma mod_fits v k : 0 <= v -> 0 <= k -> v mod 2 ^ k = v <-> unsigned_fits v k.
Proof.
  intros Hv Hk. unfold unsigned_fits. assert (0 < 2 ^ k) by (apply Z.pow_pos_nonneg; lia). split; intros H1.
  - pose proof (Z.mod_pos_bound v (2 ^ k) ltac:(lia)). lia.
  - apply Z.mod_small. lia.
Qed.
Lemma overwritten_u flag ty bits t v : 1 <= flag <= 8 -> 0 <= t < 2 ^ flag -> 1 <= bits t <= ty -> 0 <= v ->
  let w := ser_uvint flag ty bits (MkVarNum t v) in
  reads_back w (p_uvint flag bits) (v mod 2 ^ bits t) (flag + bits t) /\ (reads_back w (p_uvint flag bits) v (flag + bits t) <-> unsigned_fits v (bits t)).
Proof.
  intros Hf Ht Hb Hv w.
  assert (H : reads_back w (p_uvint flag bits) (v mod 2 ^ bits t) (flag + bits t)).
  { apply BRT_reads. unfold w, ser_uvint, p_uvint. cbn [vn_tag vn_value]. eapply BRT_bind; [apply BRT_put; [lia|exact Ht]|now apply BRT_put_mod]. }
  split; [exact H|]. rewrite <- mod_fits by lia. split; intros H1.
  - exact (reads_back_inj _ _ _ _ (flag + bits t) ltac:(lia) H H1).
  - rewrite <- H1 at 1. exact H.
Qed.
Ltac tag_u := unfold ub, uvint8_class, uvint16_class, uvint32_class, uvint8_bits, uvint16_bits, uvint32_bits; decide_z; cbn; lia.
(*@C23
   The number of a variable-length integer is a public field, the size is fixed when it is built. If a program builds it from v0 and then overwrites
   the number with v, the size stays that of v0: what is read back is v modulo 2 to that many bits, so v itself exactly when it fits the size of v0.
   A larger number is cut without a word. *)
Lemma uvint_overwritten_pf : forall v0 v,
  (0 <= v0 <= 255 -> 0 <= v <= 255 -> let n := len_uvint8 v0 - 1 in let w := ser_uvint8 (set_value (uvint8_from v0) v) in
     reads_back w p_uvint8 (v mod 2 ^ n) (1 + n) /\ (reads_back w p_uvint8 v (1 + n) <-> unsigned_fits v n)) /\
  (0 <= v0 <= 65535 -> 0 <= v <= 65535 -> let n := len_uvint16 v0 - 2 in let w := ser_uvint16 (set_value (uvint16_from v0) v) in
     reads_back w p_uvint16 (v mod 2 ^ n) (2 + n) /\ (reads_back w p_uvint16 v (2 + n) <-> unsigned_fits v n)) /\
  (0 <= v0 <= 4294967295 -> 0 <= v <= 4294967295 -> let n := len_uvint32 v0 - 2 in let w := ser_uvint32 (set_value (uvint32_from v0) v) in
     reads_back w p_uvint32 (v mod 2 ^ n) (2 + n) /\ (reads_back w p_uvint32 v (2 + n) <-> unsigned_fits v n)).
Proof.
  intros v0 v. split; [|split]; intros H0 Hv n w.
  - assert (En : n = uvint8_bits (uvint8_class v0)) by (unfold n, len_uvint8, len_vint; lia). rewrite En.
    apply (overwritten_u 1 8 uvint8_bits); tag_u.
  - assert (En : n = uvint16_bits (uvint16_class v0)) by (unfold n, len_uvint16, len_vint; lia). rewrite En.
    apply (overwritten_u 2 16 uvint16_bits); tag_u.
  - assert (En : n = uvint32_bits (uvint32_class v0)) by (unfold n, len_uvint32, len_vint; lia). rewrite En.
    apply (overwritten_u 2 32 uvint32_bits); tag_u.
Qed.
(*@ex*)
Example uvint_overwritten_example : run_at (ser_uvint8 (set_value (uvint8_from 3) 200)) (repeat true 7) 1 =
  Some ([true] ++ [false] ++ [true; false; false; false] ++ [true], 6) /\ ~ unsigned_fits 200 (len_uvint8 3 - 1).
Proof. split; [reflexivity|]. unfold unsigned_fits. cbn. lia. Qed.

(** ** Signed *)
Lemma ubits_ext n a b : 0 <= n -> a mod 2 ^ n = b mod 2 ^ n -> ubits n a = ubits n b.
Proof.
  intros Hn E. unfold ubits. assert (H : forall k, (k <= Z.to_nat n)%nat -> ubits_nat k a = ubits_nat k b).
  { induction k as [|k IH]; intros Hk; [reflexivity|]. cbn [ubits_nat]. rewrite IH by lia. f_equal.
    rewrite <- (Z.mod_pow2_bits_low a n), <- (Z.mod_pow2_bits_low b n) by lia. now rewrite E. }
  apply H. lia.
Qed.
Lemma sext_mod ty n r : 1 <= n <= ty -> (sext ty (r mod 2 ^ ty)) mod 2 ^ n = r mod 2 ^ n.
Proof.
  intros H. assert (Hp : 2 ^ ty = 2 ^ (ty - n) * 2 ^ n) by (rewrite <- Z.pow_add_r by lia; f_equal; lia).
  assert (0 < 2 ^ n) by (apply Z.pow_pos_nonneg; lia). assert (0 < 2 ^ (ty - n)) by (apply Z.pow_pos_nonneg; lia).
  assert (E : forall k, (r - 2 ^ ty * k) mod 2 ^ n = r mod 2 ^ n).
  { intros k. replace (r - 2 ^ ty * k) with (r + (- (2 ^ (ty - n) * k)) * 2 ^ n) by (rewrite Hp; ring). apply Z_mod_plus_full. }
  assert (Em : r mod 2 ^ ty = r - 2 ^ ty * (r / 2 ^ ty)) by (pose proof (Z_div_mod_eq_full r (2 ^ ty)); lia).
  unfold sext. destruct (_ <? _); rewrite Em; [apply E|]. replace (r - 2 ^ ty * (r / 2 ^ ty) - 2 ^ ty) with (r - 2 ^ ty * (r / 2 ^ ty + 1)) by ring. apply E.
Qed.
(** every outcome of the arithmetic keeps the low bits; within the range there is no panic *)
Lemma sarith_low m ty n r : 1 <= n <= ty -> m = Wrapping \/ - 2 ^ (ty - 1) <= r < 2 ^ (ty - 1) -> exists r', sarith m ty r = WOk [] r' /\ r' mod 2 ^ n = r mod 2 ^ n /\
  (- 2 ^ (ty - 1) <= r < 2 ^ (ty - 1) -> r' = r).
Proof.
  intros Hn H. unfold sarith. destruct (Z.leb_spec (- 2 ^ (ty - 1)) r), (Z.ltb_spec r (2 ^ (ty - 1))); cbn [andb]; try (eexists; now repeat split);
    (destruct m; [destruct H; [discriminate|lia]|]); eexists; (split; [reflexivity|split; [now apply sext_mod|lia]]).
Qed.
Lemma sarith_over ty r : ~ (- 2 ^ (ty - 1) <= r < 2 ^ (ty - 1)) -> sarith Checked ty r = WPanic.
Proof. intros H. unfold sarith. destruct (Z.leb_spec (- 2 ^ (ty - 1)) r), (Z.ltb_spec r (2 ^ (ty - 1))); cbn [andb]; try reflexivity; lia. Qed.
Definition tight (ty n v : Z) : Prop := Z.even n = false /\ v <= 2 ^ (n - 1) - 2 ^ (ty - 1).
Lemma bput_s_any m ty n v : 2 <= n <= ty -> Z.even ty = true -> - 2 ^ (ty - 1) <= v < 2 ^ (ty - 1) ->
  (m = Wrapping \/ ~ tight ty n v -> bput_s m ty n v = WOk (ubits 1 (if v <? 0 then 1 else 0) ++ ubits (n - 1) v) tt) /\
  (m = Checked -> tight ty n v -> bput_s m ty n v = WPanic).
Proof.
  intros Hn Hty Hv. unfold tight, bput_s.
  assert (Hle : 2 ^ (n - 1) <= 2 ^ (ty - 1)) by (apply Z.pow_le_mono_r; lia).
  assert (Hpos : 0 < 2 ^ (n - 1)) by (apply Z.pow_pos_nonneg; lia).
  assert (Hb1 : forall b, bput 8 1 b = WOk (ubits 1 b) tt) by reflexivity.
  assert (Hbn : forall x, bput ty (n - 1) x = WOk (ubits (n - 1) x) tt).
  { intros x. unfold bput. destruct (Z.leb_spec 1 (n - 1)); [|lia]. destruct (Z.leb_spec (n - 1) ty); [reflexivity|lia]. }
  rewrite Hb1. unfold wbind at 1 4. destruct (Z.ltb_spec v 0) as [Hneg|Hneg].
  - rewrite pow_m2 by lia. cbv zeta.
    assert (Hev : Z.even (n - 1) = negb (Z.even n)) by (rewrite Z.even_sub; destruct (Z.even n); reflexivity). rewrite Hev.
    destruct (Z.even n) eqn:Ev; cbn [negb].
    + split; [intros _|intros _ [? _]; discriminate].
      destruct (Z.leb_spec (- 2 ^ (ty - 1)) (- 2 ^ (n - 1))); [|lia]. destruct (Z.ltb_spec (- 2 ^ (n - 1)) (2 ^ (ty - 1))); [|lia]. cbn [andb].
      rewrite sarith_ok by lia. unfold wbind. rewrite sarith_ok by lia. rewrite Hbn. cbn [app]. do 2 f_equal.
      apply ubits_ext; [lia|]. replace (- (- 2 ^ (n - 1) - v)) with (v + 1 * 2 ^ (n - 1)) by lia. apply Z_mod_plus_full.
    + assert (n <> ty) by congruence. assert (Hlt : 2 ^ (n - 1) < 2 ^ (ty - 1)) by (apply Z.pow_lt_mono_r; lia).
      destruct (Z.leb_spec (- 2 ^ (ty - 1)) (2 ^ (n - 1))); [|lia]. destruct (Z.ltb_spec (2 ^ (n - 1)) (2 ^ (ty - 1))); [|lia]. cbn [andb].
      split.
      * intros Hm.
        destruct (sarith_low m ty (n - 1) (2 ^ (n - 1) - v) ltac:(lia)) as (d & E1 & L1 & R1); [destruct Hm as [?|Hm]; [now left|right; lia]|].
        rewrite E1. unfold wbind.
        destruct (sarith_low m ty (n - 1) (- d) ltac:(lia)) as (d' & E2 & L2 & R2).
        { destruct Hm as [?|Hm]; [now left|right]. assert (d = 2 ^ (n - 1) - v) by (apply R1; lia). lia. }
        rewrite E2. rewrite Hbn. cbn [app]. do 2 f_equal. apply ubits_ext; [lia|]. rewrite L2.
        assert (E : (- d) mod 2 ^ (n - 1) = (- (d mod 2 ^ (n - 1))) mod 2 ^ (n - 1)).
        { rewrite <- (Z.sub_0_l d), <- (Z.sub_0_l (d mod _)). now rewrite Zminus_mod_idemp_r. }
        rewrite E, L1. rewrite <- (Z.sub_0_l ((2 ^ (n - 1) - v) mod _)), Zminus_mod_idemp_r.
        replace (0 - (2 ^ (n - 1) - v)) with (v + (-1) * 2 ^ (n - 1)) by lia. apply Z_mod_plus_full.
      * intros -> [_ Ht]. rewrite sarith_over by lia. reflexivity.
  - split; [intros _|intros _ [Ev Ht]; exfalso; assert (n <> ty) by congruence; assert (2 ^ (n - 1) < 2 ^ (ty - 1)) by (apply Z.pow_lt_mono_r; lia); lia].
    rewrite sarith_ok by lia. unfold wbind. rewrite sarith_ok by lia. rewrite Hbn. cbn [app].
    replace (- (0 - v)) with v by lia. reflexivity.
Qed.
Lemma overwritten_s m ty bits mn t v : 0 <= t <= 3 -> 2 <= bits t <= ty -> Z.even ty = true -> - 2 ^ (ty - 1) <= v < 2 ^ (ty - 1) ->
  let w := ser_svint m ty bits (MkVarNum t v) in
  (m = Wrapping \/ ~ tight ty (bits t) v -> reads_back w (p_svint bits mn) ((if v <? 0 then mn t else 0) + v mod 2 ^ (bits t - 1)) (2 + bits t)) /\
  (m = Checked -> tight ty (bits t) v -> forall buf cursor, run_at w buf cursor = None).
Proof.
  intros Ht Hb Hty Hv w. unfold w, ser_svint. cbn [vn_tag vn_value]. destruct (bput_s_any m ty (bits t) v Hb Hty Hv) as [Hok Hpan]. split.
  - intros H. apply BRT_reads. unfold p_svint. eapply BRT_bind; [apply BRT_put; [lia|unfold ub; change (2 ^ 2) with 4; lia]|].
    rewrite (Hok H). eexists. split; [reflexivity|].
    assert (Hz1 : forall b, zlen (ubits 1 b) = 1) by (intros; apply ubits_zlen; lia).
    split; [rewrite zlen_app, Hz1, ubits_zlen by lia; lia|]. intros rest. rewrite <- app_assoc. unfold bbool, pbind.
    rewrite btake_app by apply Hz1. unfold pret. rewrite btake_app by (apply ubits_zlen; lia). rewrite !uval_ubits by lia.
    destruct (Z.ltb_spec v 0); reflexivity.
  - intros Hm Ht2. rewrite (Hpan Hm Ht2). intros. reflexivity.
Qed.
Lemma sign_low_fits v n : 2 <= n -> sign_and_low_bits v n = v <-> signed_fits v n.
Proof.
  intros Hn. unfold sign_and_low_bits, signed_fits. assert (0 < 2 ^ (n - 1)) by (apply Z.pow_pos_nonneg; lia).
  pose proof (Z.mod_pos_bound v (2 ^ (n - 1)) ltac:(lia)) as Hm. destruct (Z.ltb_spec v 0); split; intros E; try lia.
  - assert (v mod 2 ^ (n - 1) = v + 2 ^ (n - 1)); [|lia]. symmetry. apply (Z.mod_unique_pos v (2 ^ (n - 1)) (-1)); lia.
  - rewrite Z.mod_small by lia. lia.
Qed.
Lemma overflows_tight ty n v : overflows ty n v <-> tight ty n v.
Proof. unfold overflows, tight. rewrite <- Z.negb_even. destruct (Z.even n); cbn; intuition discriminate. Qed.
Lemma overwritten_std m ty bits mn t v : 0 <= t <= 3 -> 2 <= bits t <= ty -> Z.even ty = true -> - 2 ^ (ty - 1) <= v < 2 ^ (ty - 1) -> mn t = - 2 ^ (bits t - 1) ->
  let w := ser_svint m ty bits (MkVarNum t v) in
  (m = Wrapping \/ ~ overflows ty (bits t) v -> reads_back w (p_svint bits mn) (sign_and_low_bits v (bits t)) (2 + bits t) /\
     (reads_back w (p_svint bits mn) v (2 + bits t) <-> signed_fits v (bits t))) /\
  (m = Checked -> overflows ty (bits t) v -> forall buf cursor, run_at w buf cursor = None).
Proof.
  intros Ht Hb Hty Hv Hmn w. rewrite overflows_tight. destruct (overwritten_s m ty bits mn t v Ht Hb Hty Hv) as [H1 H2]. split; [|exact H2].
  intros Hc. specialize (H1 Hc). rewrite Hmn in H1. fold (sign_and_low_bits v (bits t)) in H1. fold w in H1. split; [exact H1|].
  rewrite <- sign_low_fits by lia. split; intros E; [exact (reads_back_inj _ _ _ _ (2 + bits t) ltac:(lia) H1 E)|rewrite <- E at 1; exact H1].
Qed.
Lemma class_cases cls v : cls = svint12_class \/ cls = svint13_class \/ cls = svint14_class \/ cls = svint16_class \/ cls = svint24_class ->
  cls v = 0 \/ cls v = 1 \/ cls v = 2 \/ cls v = 3.
Proof.
  unfold svint12_class, svint13_class, svint14_class, svint16_class, svint24_class.
  intros [-> | [-> | [-> | [-> | ->]]]]; repeat match goal with |- context [if ?c then _ else _] => destruct c end; tauto.
Qed.
Ltac tag_s n len cls := let En := fresh in let C := fresh in
  assert (C : cls = 0 \/ cls = 1 \/ cls = 2 \/ cls = 3) by (apply class_cases; tauto);
  match goal with |- context [set_value ?x ?v] => change (set_value x v) with (MkVarNum cls v) end;
  destruct C as [C | [C | [C | C]]]; subst n; unfold len, len_vint; rewrite C;
  match goal with |- context [2 + ?k - 2] => replace (2 + k - 2) with k by lia end;
  (apply overwritten_std; [lia|cbn; lia|reflexivity|cbn; lia|reflexivity]).
(*@C24
   The same for the signed integers of 16-bit type, for any two numbers of that type: the size is the one chosen for v0 (the largest when none
   holds v0) and what comes back is the sign and the low bits of v, so v itself exactly when it fits that size. When the size is 3, 5, 7, 9 or 13 bits
   and v is at the far negative end of the type, an intermediate result overflows: a build with overflow checks panics wherever it writes. *)
Lemma svint_overwritten_pf : forall m v0 v, -32768 <= v0 <= 32767 -> -32768 <= v <= 32767 ->
  (let n := len_svint12 v0 - 2 in let w := ser_svint12 m (set_value (svint12_from v0) v) in
     (m = Wrapping \/ ~ overflows 16 n v -> reads_back w p_svint12 (sign_and_low_bits v n) (2 + n) /\ (reads_back w p_svint12 v (2 + n) <-> signed_fits v n)) /\
     (m = Checked -> overflows 16 n v -> forall buf cursor, run_at w buf cursor = None)) /\
  (let n := len_svint13 v0 - 2 in let w := ser_svint13 m (set_value (svint13_from v0) v) in
     (m = Wrapping \/ ~ overflows 16 n v -> reads_back w p_svint13 (sign_and_low_bits v n) (2 + n) /\ (reads_back w p_svint13 v (2 + n) <-> signed_fits v n)) /\
     (m = Checked -> overflows 16 n v -> forall buf cursor, run_at w buf cursor = None)) /\
  (let n := len_svint14 v0 - 2 in let w := ser_svint14 m (set_value (svint14_from v0) v) in
     (m = Wrapping \/ ~ overflows 16 n v -> reads_back w p_svint14 (sign_and_low_bits v n) (2 + n) /\ (reads_back w p_svint14 v (2 + n) <-> signed_fits v n)) /\
     (m = Checked -> overflows 16 n v -> forall buf cursor, run_at w buf cursor = None)) /\
  (let n := len_svint16 v0 - 2 in let w := ser_svint16 m (set_value (svint16_from v0) v) in
     (m = Wrapping \/ ~ overflows 16 n v -> reads_back w p_svint16 (sign_and_low_bits v n) (2 + n) /\ (reads_back w p_svint16 v (2 + n) <-> signed_fits v n)) /\
     (m = Checked -> overflows 16 n v -> forall buf cursor, run_at w buf cursor = None)).
Proof.
  intros m v0 v H0 Hv. split; [|split; [|split]]; intros n w; subst w.
  - tag_s n len_svint12 (svint12_class v0).
  - tag_s n len_svint13 (svint13_class v0).
  - tag_s n len_svint14 (svint14_class v0).
  - tag_s n len_svint16 (svint16_class v0).
Qed.
(*@C24
   In particular a number outside the 12, 13 or 14 bits of its kind can be built without complaint and comes back changed: the largest size is
   chosen and cuts it. *)
Lemma svint_out_of_range_refuted_pf : forall m v, -32768 <= v <= 32767 ->
  (~ signed_fits v 12 -> reads_back (ser_svint12 m (svint12_from v)) p_svint12 (sign_and_low_bits v 12) 14 /\ sign_and_low_bits v 12 <> v) /\
  (~ signed_fits v 14 -> reads_back (ser_svint14 m (svint14_from v)) p_svint14 (sign_and_low_bits v 14) 16 /\ sign_and_low_bits v 14 <> v).
Proof.
  intros m v Hv. destruct (svint_overwritten_pf m v v Hv Hv) as (H12 & _ & H14 & _). split; intros Hf; unfold signed_fits in Hf; (split; [|rewrite sign_low_fits by lia; exact Hf]); cbn in Hf.
  - assert (E : len_svint12 v = 14). { unfold len_svint12, len_vint, svint12_class. repeat match goal with |- context [in_rng ?a ?b v] => destruct (in_rng_spec a b v); try lia end. reflexivity. }
    rewrite E in H12. apply H12. right. intros [? _]. discriminate.
  - assert (E : len_svint14 v = 16). { unfold len_svint14, len_vint, svint14_class. repeat match goal with |- context [in_rng ?a ?b v] => destruct (in_rng_spec a b v); try lia end. reflexivity. }
    rewrite E in H14. apply H14. right. intros [? _]. discriminate.
Qed.
(*@ex*)
Example svint_overwritten_example : (forall buf, run_at (ser_svint12 Checked (set_value (svint12_from 0) (-32768))) buf 0 = None) /\
  run_at (ser_svint12 Wrapping (set_value (svint12_from 0) (-32767))) (repeat true 6) 1 = Some ([true] ++ [false; false] ++ [true; false; true], 6) /\
  sign_and_low_bits 5000 12 = 904 /\ ~ signed_fits 5000 12.
Proof. split; [reflexivity|]. split; [reflexivity|]. split; [reflexivity|]. unfold signed_fits. cbn. lia. Qed.

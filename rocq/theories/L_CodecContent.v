(** * The content of PDUs through the C-DIS codec (lemmas and properties) *)
From Coq Require Import ZArith List Lia Bool SpecFloat Reals Lra Psatz Sorted.
From Flocq Require Import Core BinarySingleNaN.
From Verif Require Import Base CdisBase DisCommon DisHeader DisLists DisSimman DisLogistics DisWarfare DisEntity DisEmission DisRadio DisIff DisPdu DisPacket
  CdisRecords CdisBodies1 CdisBodies2 CdisIff CdisPdu CdisCodec1 CdisCodec2 CdisCodec3 SpecFloatValue SpecContent SpecBody SpecCodec FloatReal FloatBits FloatBits64 L_Codec L_CodecNum L_CodecPrec L_CodecDrift.
Import ListNotations. Open Scope Z_scope.

(** ** Places *)
Ltac scale53 := unfold fin; split; [split; vm_compute; reflexivity|]; match goal with |- context [SF2R radix2 ?c] => let v := eval vm_compute in c in change c with v end; cbn [SF2R]; unfold F2R; cbn; lra.
Definition lat53 : spec_float := dfdiv (dfsub (df_of_int (2 ^ 30)) (df_of_int 1)) df_frac_pi_2.
Definition lon53 : spec_float := dfdiv (dfsub (df_of_int (2 ^ 31)) (df_of_int 1)) df_pi.
Definition lat24 : spec_float := sfdiv (sfsub (fz (2 ^ 30)) (fz 1)) sf_frac_pi_2.
Definition lon24 : spec_float := sfdiv (sfsub (fz (2 ^ 31)) (fz 1)) sf_pi.
Lemma lat53_ok : ok53 lat53 /\ (683565274 <= val lat53 <= 683565276)%R. Proof. scale53. Qed.
Lemma lon53_ok : ok53 lon53 /\ (683565274 <= val lon53 <= 683565276)%R. Proof. scale53. Qed.
Lemma lat24_ok : ok24 lat24 /\ val lat24 = 683565248%R. Proof. scale53. Qed.
Lemma lon24_ok : ok24 lon24 /\ val lon24 = 683565248%R. Proof. scale53. Qed.
Lemma mul53 x y : ok53 x -> ok53 y -> (Rabs (val x * val y) <= huge)%R -> ok53 (dfmul x y) /\ (Rabs (val (dfmul x y) - val x * val y) <= Rabs (val x * val y) * ulp24 + tiny)%R.
Proof. intros A B C. destruct (mul_R 53 1024 _ _ x y A B (rnd_small53 _ C)) as [F V]. split; [exact F|]. unfold dfmul. rewrite V. apply rnd_near53. Qed.
Lemma div53 x y : ok53 x -> ok53 y -> val y <> 0%R -> (Rabs (val x / val y) <= huge)%R -> ok53 (dfdiv x y) /\ (Rabs (val (dfdiv x y) - val x / val y) <= Rabs (val x / val y) * ulp24 + tiny)%R.
Proof. intros A B N C. destruct (div_R 53 1024 _ _ x y A B N (rnd_small53 _ C)) as [F V]. split; [exact F|]. unfold dfdiv. rewrite V. apply rnd_near53. Qed.
Lemma narrow f : ok53 f -> (Rabs (val f) <= huge)%R -> ok24 (f64_as_f32 f) /\ (Rabs (val (f64_as_f32 f) - val f) <= Rabs (val f) * ulp24 + tiny)%R.
Proof. intros F B. destruct (to_R 24 128 _ _ 53 1024 f F (rnd_small _ B)) as [G V]. split; [exact G|]. unfold f64_as_f32. rewrite V. apply rnd_near. Qed.
Lemma widen f : ok24 f -> (Rabs (val f) <= huge)%R -> ok53 (f32_as_f64 f) /\ val (f32_as_f64 f) = val f.
Proof.
  intros F B. destruct (to_R 53 1024 _ _ 24 128 f F (rnd_small53 _ B)) as [G V]. split; [exact G|]. unfold f32_as_f64. rewrite V.
  destruct F as [W I]. destruct f as [s|s| |s p e]; cbn [is_finite_SF] in I; try discriminate.
  - cbn [SF2R]. unfold rnd. apply round_0. typeclasses eauto.
  - cbn [valid_binary] in W. apply bounded_inv in W. cbn [SF2R]. apply rnd_exact; [destruct s; cbn [cond_Zopp]; lia|unfold SpecFloat.emin; lia].
Qed.
(** rounding errors of the double precision product are bounded coarsely; the sum below leaves room *)
Lemma rnd_near53_fine x : (Rabs (rnd 53 1024 x - x) <= Rabs x * (/ 1000000000000) + tiny)%R.
Proof.
  destruct (rnd_error 53 1024 _ x) as (e & d & E & D & ->). replace (x * (1 + e) + d - x)%R with (x * e + d)%R by ring.
  eapply Rle_trans; [apply Rabs_triang|]. apply Rplus_le_compat.
  - rewrite Rabs_mult. apply Rmult_le_compat_l; [apply Rabs_pos|]. eapply Rle_trans; [exact E|]. cbn. lra.
  - eapply Rle_trans; [exact D|]. apply Rle_trans with (bpow radix2 (-149)).
    + apply Rle_trans with (bpow radix2 (SpecFloat.emin 53 1024)); [pose proof (bpow_ge_0 radix2 (SpecFloat.emin 53 1024)); lra|]. apply bpow_le. unfold SpecFloat.emin. lia.
    + unfold tiny. cbn. lra.
Qed.
Lemma mul53_fine x y : ok53 x -> ok53 y -> (Rabs (val x * val y) <= huge)%R -> ok53 (dfmul x y) /\ (Rabs (val (dfmul x y) - val x * val y) <= Rabs (val x * val y) * (/ 1000000000000) + tiny)%R.
Proof. intros A B C. destruct (mul_R 53 1024 _ _ x y A B (rnd_small53 _ C)) as [F V]. split; [exact F|]. unfold dfmul. rewrite V. apply rnd_near53_fine. Qed.
Lemma coordinate_hop f c d : ok53 f -> ok53 c -> ok24 d -> (683565274 <= val c <= 683565276)%R -> val d = 683565248%R -> (-4 <= val f <= 4)%R ->
  let r := sfdiv (sf_of_bits (bits_of_sf (f64_as_f32 (dfmul f c)))) d in
  ok24 r /\ (Rabs (val r - val f) <= 0.0000003 * Rabs (val f) + 0.000000000001)%R.
Proof.
  intros F C D CV DV B. cbv zeta. assert (A : (Rabs (val f) <= 4)%R) by (apply Rabs_le; lra).
  assert (PC : (Rabs (val f * val c) = Rabs (val f) * val c)%R) by (rewrite Rabs_mult, (Rabs_right (val c)) by lra; reflexivity).
  assert (PF : (0 <= Rabs (val f))%R) by apply Rabs_pos.
  destruct (mul53_fine f c F C) as [P N]; [rewrite PC; unfold huge; nra|]. rewrite PC in N. set (w := dfmul f c) in *.
  assert (W : (Rabs (val w) <= 4000000000)%R).
  { replace (val w) with ((val w - val f * val c) + val f * val c)%R by ring. eapply Rle_trans; [apply Rabs_triang|]. rewrite PC. unfold tiny in N. nra. }
  destruct (narrow w P) as [Q M]; [unfold huge; lra|]. rewrite (proj1 (bits_round_trip _ Q)). set (v := f64_as_f32 w) in *.
  assert (E1 : (Rabs (val w - val f * val c) <= 0.001 * Rabs (val f) + tiny)%R) by nra.
  assert (E2 : (Rabs (val w) <= Rabs (val f) * 683565277 + tiny)%R).
  { replace (val w) with ((val w - val f * val c) + val f * val c)%R by ring. eapply Rle_trans; [apply Rabs_triang|]. rewrite PC. nra. }
  assert (E3 : (Rabs (val v - val w) <= Rabs (val f) * 41 + 2 * tiny)%R) by (unfold ulp24 in M; unfold tiny in *; lra).
  assert (E4 : (Rabs (val f * val c - val f * 683565248) <= Rabs (val f) * 28)%R).
  { rewrite <- Rmult_minus_distr_l, Rabs_mult. apply Rmult_le_compat_l; [exact PF|]. apply Rabs_le. lra. }
  assert (E5 : (Rabs (val v - val f * 683565248) <= Rabs (val f) * 70 + 4 * tiny)%R).
  { replace (val v - val f * 683565248)%R with ((val v - val w) + (val w - val f * val c) + (val f * val c - val f * 683565248))%R by ring.
    eapply Rle_trans; [apply Rabs_triang|]. eapply Rle_trans; [apply Rplus_le_compat_r, Rabs_triang|]. unfold tiny in *. lra. }
  assert (E6 : (Rabs (val v / val d - val f) <= Rabs (val f) * 0.00000011 + 4 * tiny)%R).
  { rewrite DV. replace (val v / 683565248 - val f)%R with ((val v - val f * 683565248) * / 683565248)%R by field. rewrite Rabs_mult, (Rabs_right (/ 683565248)) by lra. unfold tiny in *. lra. }
  assert (E7 : (Rabs (val v / val d) <= Rabs (val f) * 1.0000002 + 4 * tiny)%R).
  { replace (val v / val d)%R with ((val v / val d - val f) + val f)%R by ring. eapply Rle_trans; [apply Rabs_triang|]. lra. }
  destruct (div_near v d Q D) as [R G]; [lra|unfold huge, tiny in *; lra|]. split; [exact R|].
  replace (val (sfdiv v d) - val f)%R with ((val (sfdiv v d) - val v / val d) + (val v / val d - val f))%R by ring.
  eapply Rle_trans; [apply Rabs_triang|]. unfold ulp24, tiny in *. lra.
Qed.
Lemma cast_whole f lo hi : ok53 f -> lo <= -10000000 -> 20000000 <= hi -> (-9000000 <= val f <= 10000001)%R -> 
  (Rabs (IZR (sf_cast lo hi f) - val f) <= 1)%R /\ Z.abs (sf_cast lo hi f) < 2 ^ 24.
Proof.
  intros F L H B. rewrite (cast_fin 53 1024) by (try exact F; lia). pose proof (trunc_near (val f)) as T. apply Rabs_def2 in T.
  assert (-9000002 < Ztrunc (val f)) by (apply lt_IZR; lra). assert (Ztrunc (val f) < 10000003) by (apply lt_IZR; lra).
  assert (E : Z.max lo (Z.min hi (Ztrunc (val f))) = Ztrunc (val f)) by (clear - L H H0 H1; lia). rewrite E. split; [apply Rabs_le; lra|lia].
Qed.
Definition enc_altitude (alt : spec_float) : Z * Z :=
  let cm := dfmul alt (df_of_int 100) in
  let (a, u) := if SFleb cm (df_of_int 8388608) then (cm, 0) else (dfdiv alt (df_of_int 10), 1) in (sf_cast (- 2 ^ 31) (2 ^ 31 - 1) a, u).
Definition dec_altitude (a u : Z) : spec_float := if u =? 0 then sfdiv (fz a) (fz 100) else sfmul (fz a) (fz 10).
Lemma altitude_hop f : ok53 f -> (-83886 <= val f <= 100000000)%R -> let (a, u) := enc_altitude f in let r := dec_altitude a u in
  ok24 r /\ (Rabs (val r) <= 200000000)%R /\ (Rabs (val r - val f) <= (if Rle_dec (val f) 83886 then 0.0152 else 10.1 + 0.0000002 * val f))%R.
Proof.
  intros F B. unfold enc_altitude. cbv zeta.
  destruct (int_exact53 100 ltac:(lia)) as [H1 V1]. destruct (int_exact53 8388608 ltac:(lia)) as [H2 V2]. destruct (int_exact53 10 ltac:(lia)) as [H3 V3].
  assert (A : (Rabs (val f) <= 100000000)%R) by (apply Rabs_le; lra).
  destruct (mul53_fine f (df_of_int 100) F H1) as [C N]; [rewrite V1, Rabs_mult, (Rabs_right 100) by lra; unfold huge; lra|]. rewrite V1, Rabs_mult, (Rabs_right 100) in N by lra.
  set (cm := dfmul f (df_of_int 100)) in *. rewrite (leb_R 53 1024 cm (df_of_int 8388608) C H2), V2.
  assert (NC : (Rabs (val cm - val f * 100) <= 0.0100001)%R) by (unfold tiny in N; lra).
  destruct (Rle_bool_spec (val cm) 8388608) as [S|S].
  - assert (FB : (Rabs (val f) <= 83887)%R) by (apply Rabs_le_inv in NC; apply Rabs_le; lra).
    assert (NF : (Rabs (val cm - val f * 100) <= 0.00001)%R) by (unfold tiny in N; lra). apply Rabs_le_inv in NF. apply Rabs_le_inv in FB.
    destruct (cast_whole cm (- 2 ^ 31) (2 ^ 31 - 1) C ltac:(lia) ltac:(lia) ltac:(lra)) as [T Z]. set (z := sf_cast _ _ cm) in *.
    unfold dec_altitude. change (0 =? 0) with true. cbv beta iota zeta.
    destruct (int_exact z Z) as [G W]. destruct hundred_ok as [H H']. apply Rabs_le_inv in T.
    assert (ZB : (Rabs (IZR z / 100) <= 83888)%R) by (apply Rabs_le; lra).
    destruct (div_near (fz z) (fz 100) G H) as [R M]; [lra|unfold fz in *; rewrite W, H'; unfold huge; lra|]. split; [exact R|].
    assert (MM : (Rabs (val (sfdiv (fz z) (fz 100)) - IZR z / 100) <= 0.00501)%R).
    { rewrite H' in M. change (val (fz z)) with (val (sf_of_int z)) in M. rewrite W in M. unfold ulp24, tiny in M. lra. }
    apply Rabs_le_inv in MM. apply Rabs_le_inv in ZB. split; [apply Rabs_le; lra|]. destruct Rle_dec; apply Rabs_le; lra.
  - assert (FB : (83886.07 <= val f)%R) by (apply Rabs_le_inv in NC; lra).
    destruct (div53 f (df_of_int 10) F H3) as [D Q]; [lra|rewrite V3; unfold huge; apply Rabs_le; lra|]. rewrite V3 in Q.
    assert (QB : (Rabs (val (dfdiv f (df_of_int 10)) - val f / 10) <= 1)%R).
    { eapply Rle_trans; [exact Q|]. rewrite Rabs_right by lra. unfold ulp24, tiny. lra. }
    apply Rabs_le_inv in QB. set (q := dfdiv f (df_of_int 10)) in *.
    assert (QF : (Rabs (val q - val f / 10) <= val f * 0.00000001 + tiny)%R) by (eapply Rle_trans; [exact Q|]; rewrite Rabs_right by lra; unfold ulp24; lra).
    apply Rabs_le_inv in QF. unfold tiny in QF.
    destruct (cast_whole q (- 2 ^ 31) (2 ^ 31 - 1) D ltac:(lia) ltac:(lia) ltac:(lra)) as [T Z]. set (z := sf_cast _ _ q) in *.
    unfold dec_altitude. change (1 =? 0) with false. cbv beta iota zeta.
    destruct (int_exact z Z) as [G W]. destruct ten_ok as [H H']. apply Rabs_le_inv in T.
    assert (ZB : (0 <= IZR z * 10 <= 100000021)%R) by lra.
    destruct (mul_near (fz z) (fz 10) G H) as [R M]; [unfold fz in *; rewrite W, H'; unfold huge; apply Rabs_le; lra|]. split; [exact R|].
    rewrite H' in M. change (val (fz z)) with (val (sf_of_int z)) in M. rewrite W, (Rabs_right (IZR z * 10)) in M by lra. unfold ulp24, tiny in M. apply Rabs_le_inv in M.
    split; [apply Rabs_le; lra|]. destruct Rle_dec; [lra|]. apply Rabs_le; lra.
Qed.
Lemma zero_value b : f64_finite b -> df_is_zero b = true <-> f64_value b = 0%R.
Proof.
  intros F. unfold df_is_zero. split.
  - intros H. apply orb_true_iff in H. destruct H as [H|H]; apply Z.eqb_eq in H; subst b; unfold f64_value; change (f64_exponent 0 =? 0) with true; change (f64_fraction 0) with 0;
    try (change (f64_exponent (2 ^ 63) =? 0) with true; change (f64_fraction (2 ^ 63)) with 0); cbv iota; rewrite Rmult_0_l; apply Rmult_0_r.
  - intros H. destruct F as [B E]. unfold f64_value, f64_exponent, f64_fraction in *.
    assert (P : forall e, (0 < powerRZ 2 e)%R) by (intros e; apply powerRZ_lt; lra).
    assert (S : forall r, ((if 2 ^ 63 <=? b then -1 else 1) * r = 0 -> r = 0)%R) by (intros r Hr; destruct (2 ^ 63 <=? b); lra). apply S in H.
    pose proof (Z.mod_pos_bound b (2 ^ 52) eq_refl) as K.
    destruct (Z.eqb_spec ((b / 2 ^ 52) mod 2048) 0) as [X|X].
    + apply Rmult_integral in H. destruct H as [H|H]; [|pose proof (P (-1074)); lra]. apply eq_IZR in H.
      apply orb_true_iff. rewrite !Z.eqb_eq.
      assert (D : b = 2 ^ 52 * (b / 2 ^ 52)) by (rewrite (Z.div_mod b (2 ^ 52)) at 1 by lia; lia).
      assert (Q : 0 <= b / 2 ^ 52 < 4096) by (split; [apply Z.div_pos; lia|apply Z.div_lt_upper_bound; lia]).
      rewrite (Z.div_mod (b / 2 ^ 52) 2048), X in D by lia. assert (0 <= b / 2 ^ 52 / 2048 <= 1) by (split; [apply Z.div_pos; lia|]; assert (b / 2 ^ 52 / 2048 < 2) by (apply Z.div_lt_upper_bound; lia); lia). lia.
    + apply Rmult_integral in H. destruct H as [H|H]; [|pose proof (P (((b / 2 ^ 52) mod 2048) - 1075)); lra]. apply eq_IZR in H. lia.
Qed.
Lemma place_is_kept g l : place_kept g l (let (c, u) := enc_world g l in dec_world g c u).
Proof.
  intros lat lon alt LLA NC X1 X2 X3 F1 F2 F3 B1 B2 B3. unfold enc_world. rewrite LLA.
  destruct (df_is_zero (loc_x l) && df_is_zero (loc_y l) && df_is_zero (loc_z l)) eqn:Z.
  { exfalso. apply NC. apply andb_true_iff in Z. destruct Z as [Z Z3]. apply andb_true_iff in Z. destruct Z as [Z1 Z2]. split; [|split]; now apply zero_value. }
  destruct (of_bits53_fin lat F1) as [O1 V1]. destruct (of_bits53_fin lon F2) as [O2 V2]. destruct (of_bits53_fin alt F3) as [O3 V3].
  rewrite <- V1, <- V2, <- V3 in *.
  fold lat53. fold lon53.
  change (dfdiv (dfsub (df_of_int (2 ^ 30)) (df_of_int 1)) df_frac_pi_2) with lat53.
  pose proof (altitude_hop _ O3 B3) as A. unfold enc_altitude in A. cbv zeta in A |- *.
  destruct (if SFleb (dfmul (df_of_bits alt) (df_of_int 100)) (df_of_int 8388608) then (dfmul (df_of_bits alt) (df_of_int 100), 0) else (dfdiv (df_of_bits alt) (df_of_int 10), 1)) as [a u].
  destruct A as (A1 & A2 & A3). unfold dec_world. cbn [cwc_lat cwc_lon cwc_alt]. fold lat24. fold lon24.
  destruct lat53_ok as [L1 L1v], lon53_ok as [L2 L2v], lat24_ok as [L3 L3v], lon24_ok as [L4 L4v].
  destruct (coordinate_hop (df_of_bits lat) lat53 lat24 O1 L1 L3 L1v L3v B1) as [R1 N1].
  destruct (coordinate_hop (df_of_bits lon) lon53 lon24 O2 L2 L4 L2v L4v B2) as [R2 N2].
  set (r1 := sfdiv _ lat24) in *. set (r2 := sfdiv _ lon24) in *.
  change (if u =? 0 then sfdiv (fz (sf_cast (- 2 ^ 31) (2 ^ 31 - 1) a)) (fz 100) else sfmul (fz (sf_cast (- 2 ^ 31) (2 ^ 31 - 1) a)) (fz 10)) with (dec_altitude (sf_cast (- 2 ^ 31) (2 ^ 31 - 1) a) u).
  set (r3 := dec_altitude _ u) in *.
  assert (S : forall r f, (-4 <= val f <= 4)%R -> (Rabs (val r - val f) <= 0.0000003 * Rabs (val f) + 0.000000000001)%R -> (Rabs (val r) <= huge)%R).
  { intros r f Hf Hr. assert (Rabs (val f) <= 4)%R by (apply Rabs_le; lra). replace (val r) with ((val r - val f) + val f)%R by ring. eapply Rle_trans; [apply Rabs_triang|]. unfold huge. lra. }
  destruct (widen r1 R1 (S _ _ B1 N1)) as [W1 E1]. destruct (widen r2 R2 (S _ _ B2 N2)) as [W2 E2]. destruct (widen r3 A1) as [W3 E3]; [unfold huge; lra|].
  destruct (bits53_of_fin _ W1) as [D1 U1]. destruct (bits53_of_fin _ W2) as [D2 U2]. destruct (bits53_of_fin _ W3) as [D3 U3].
  exists (bits_of_df (f32_as_f64 r1)), (bits_of_df (f32_as_f64 r2)), (bits_of_df (f32_as_f64 r3)).
  split; [destruct (to_ecef g _ _ _) as [[x y] z]; reflexivity|]. split; [exact D1|]. split; [exact D2|]. split; [exact D3|].
  unfold within. rewrite U1, U2, U3, E1, E2, E3. repeat split; assumption.
Qed.

(** ** Bodies *)
Lemma wbind_inv {O A B} (w : wres O A) (f : A -> wres O B) l b : wbind w f = WOk l b -> exists l1 a l2, w = WOk l1 a /\ f a = WOk l2 b.
Proof. unfold wbind. intros H. destruct w as [l1 a|]; [|discriminate H]. destruct (f a) as [l2 b2|] eqn:E; [|discriminate H]. injection H as _ <-. exists l1, a, l2. auto. Qed.
Lemma finalize_body m h b t l q : finalize m h b t = WOk l q -> pdu_body q = b.
Proof.
  unfold finalize. intros H. apply wbind_inv in H. destruct H as (l1 & n & l2 & _ & H). apply wbind_inv in H. destruct H as (l3 & h' & l4 & _ & H).
  cbn in H. injection H as _ <-. reflexivity.
Qed.
Lemma translated_body m g oe od p c p' : translated m g oe od p c p' -> exists now est dst r est' r' dst',
  enc_body g oe now est (pdu_body p) = Some (cp_body c, r, est') /\ dec_body g od dst (cp_body c) = (pdu_body p', r', dst').
Proof.
  intros (now & est & dst & r & est' & r' & dst' & E & D). exists now, est, dst, r, est', r', dst'.
  unfold encode in E. destruct (enc_body g oe now est (pdu_body p)) as [[[b q] s]|]; [|discriminate]. injection E as <- <- <-. split; [reflexivity|].
  unfold decode in D. destruct (dec_body g od dst _) as [[b' q'] s'].
  apply wbind_inv in D. destruct D as (l1 & q2 & l2 & F & D). apply finalize_body in F. cbn in D. injection D as _ <- <- <-. now rewrite F.
Qed.
Lemma eid_back i : dec_eid (enc_eid i) = i. Proof. destruct i as [[a b] c]. reflexivity. Qed.
Lemma event_back i : dec_event (enc_event i) = i. Proof. destruct i as [[a b] c]. reflexivity. Qed.
Lemma etype_back t : dec_etype (enc_etype t) = t. Proof. destruct t. reflexivity. Qed.
Lemma speed_back v : speed_kept v (dec_velocity (enc_velocity v)).
Proof. split; [|split]; apply decimeters. Qed.
Lemma acceleration_back v : acceleration_kept v (dec_acceleration (enc_acceleration v)).
Proof.
  split; [|split]; cbn; intros F B; destruct (decimeters _ F) as [A N]; (split; [exact A|]); now rewrite clip_id in N by lra.
Qed.
Lemma turning_back v : turning_kept v (dec_angular (enc_angular v)).
Proof. split; [|split]; apply rate. Qed.
Lemma orientation_back o : orientation_kept o (dec_orientation (enc_orientation o)).
Proof. split; [|split]; apply angle. Qed.
Lemma coordinates_back v : coordinates_kept v (dec_ecv (fst (enc_ecv v)) (snd (enc_ecv v))).
Proof. intros (F1 & F2 & F3). exact (coordinates v F1 F2 F3). Qed.
Lemma whole_back_u d b hi : 0 <= hi <= 2 ^ 40 -> whole_kept (IZR hi) b (f32_of_int (unopt d (sf_from 0 hi (sf_of_bits b)))).
Proof. intros H. apply (whole 0 hi d b); lia. Qed.
Lemma vp_back v : vp_kept v (dec_vp (enc_vp v)).
Proof.
  destruct v as [x|x|x|x|x|t l]; cbn [enc_vp dec_vp vp_kept car_change car_attachment car_metric car_class car_value CAttached_detached CAttached_attachment CAttached_ptype CAttached_etype
    CSeparation_reason CSeparation_pre CSeparation_parent CSeparation_station CSeparation_number CEntityTypeVP_change CEntityTypeVP_etype
    CAssociation_change CAssociation_status CAssociation_atype CAssociation_entity CAssociation_station CAssociation_connection CAssociation_member CAssociation_group];
    rewrite ?etype_back, ?eid_back; try (destruct x; reflexivity); try reflexivity.
  eexists. split; [reflexivity|]. cbn [ap_change ap_attachment ap_metric ap_class ap_value]. do 4 (split; [reflexivity|]).
  intros F B. exact (proj2 (parameter_is_kept _ F B) F B).
Qed.
Lemma vps_back l : Forall2 vp_kept l (map dec_vp (map enc_vp l)).
Proof. induction l as [|v l IH]; constructor; [apply vp_back|exact IH]. Qed.
Lemma world_back g l : place_kept g l (dec_world g (fst (enc_world g l)) (snd (enc_world g l))).
Proof. pose proof (place_is_kept g l) as H. destruct (enc_world g l). exact H. Qed.
Lemma mass_back b : mass_kept b (dec_mass (fst (enc_mass b)) (snd (enc_mass b))).
Proof. apply mass_is_kept. Qed.
Lemma force_back f : force_kept f (dec_force (enc_force f)).
Proof. intros F B. exact (proj2 (force_is_kept _ F B) F B). Qed.
Lemma count_back n : 0 <= n -> unopt 0 (enc_count n) = Z.min n 255.
Proof. intros H. unfold enc_count. destruct (Z.eqb_spec n 0) as [->|]; reflexivity. Qed.
Lemma range_back b : whole_kept 4294967295 b (f32_of_int (unopt 0 (if f32_is_normal b then sf_from 0 4294967295 (sf_of_bits b) else None))).
Proof.
  destruct (f32_is_normal b) eqn:N; [apply whole_back_u; lia|].
  intros F B. cbn [unopt]. change (f32_of_int 0) with 0. destruct F as [FB FE]. unfold f32_is_normal in N. unfold f32_exponent in FE.
  assert (E : (b / 2 ^ 23) mod 256 = 0).
  { destruct (Z.eqb_spec ((b / 2 ^ 23) mod 256) 0); [assumption|]. destruct (Z.eqb_spec ((b / 2 ^ 23) mod 256) 255); [contradiction|discriminate]. }
  split; [split; [lia|discriminate]|]. unfold within, f32_value, f32_exponent, f32_fraction in *. rewrite E in *. cbn [Z.eqb] in *.
  change (0 mod 2 ^ 23) with 0. change ((0 / 2 ^ 23) mod 256 =? 0) with true. change (2 ^ 31 <=? 0) with false. cbv iota. rewrite Rmult_0_l, Rmult_0_r.
  pose proof (Z.mod_pos_bound b (2 ^ 23) eq_refl) as K. assert (KR : (0 <= IZR (b mod 2 ^ 23) <= 8388608)%R) by (split; apply IZR_le; lia).
  assert (P : (0 <= powerRZ 2 (-149) <= / 8388608)%R).
  { change 2%R with (IZR (Zaux.radix_val radix2)). rewrite <- bpow_powerRZ. split; [apply bpow_ge_0|]. apply Rle_trans with (bpow radix2 (-23)); [apply bpow_le; lia|]. cbn. lra. }
  set (k := IZR (b mod 2 ^ 23)) in *. set (p := powerRZ 2 (-149)) in *. assert (0 <= k * p <= 1)%R by nra.
  destruct (2 ^ 31 <=? b); apply Rabs_le; lra.
Qed.

(*@C47 A Collision: the entities, the event and the kind of collision arrive as they were sent; velocity, mass and location to the precision of C-DIS. *)
Lemma cdis_collision_content_pf : forall m g oe od p c p' x, translated m g oe od p c p' -> pdu_body p = BCollision x ->
  exists y, pdu_body p' = BCollision y /\ collision_kept x y.
Proof.
  intros m g oe od p c p' x T E. apply translated_body in T. destruct T as (now & est & dst & r & est' & r' & dst' & EN & DE). rewrite E in EN.
  cbn in EN. injection EN as EN _ _. rewrite <- EN in DE. cbn in DE. injection DE as <- _ _. eexists. split; [reflexivity|].
  unfold dec_collision, enc_collision, collision_kept. pose proof (coordinates_back (Collision_location x)) as L. pose proof (mass_back (Collision_mass x)) as M.
  destruct (enc_ecv (Collision_location x)) as [loc u]. destruct (enc_mass (Collision_mass x)) as [ma um]. cbn in L, M |- *.
  rewrite !eid_back, event_back. do 4 (split; [reflexivity|]). split; [apply speed_back|]. split; [exact M|exact L].
Qed.

(*@C47 A Fire: everything exactly but the location, the velocity and the range, which keep the precision of C-DIS; and the descriptor of the munition
 when the entity type says that it is a munition (or an expendable). *)
Lemma cdis_fire_content_pf : forall m g oe od p c p' x, translated m g oe od p c p' -> pdu_body p = BFire x -> wf_DescriptorRecord (Fire_descriptor x) ->
  exists y, pdu_body p' = BFire y /\ fire_kept g x y.
Proof.
  intros m g oe od p c p' x T E WD. apply translated_body in T. destruct T as (now & est & dst & r & est' & r' & dst' & EN & DE). rewrite E in EN.
  cbn [enc_body] in EN. injection EN as EN _ _. rewrite <- EN in DE. cbn [dec_body] in DE. injection DE as <- _ _. eexists. split; [reflexivity|].
  pose proof (world_back g (Fire_location_in_world x)) as L. unfold enc_fire, fire_kept, fire_kept_at. destruct (enc_world g (Fire_location_in_world x)) as [wl u]. cbn [fst snd] in L.
  pose proof (range_back (Fire_range x)) as R.
  set (td := match Fire_descriptor x with DMunition t m0 => (t, enc_munition m0) | DExpendable t | DExplosion t _ _ => (t, no_munition) end).
  destruct td as [t [[[w f] q] rt]] eqn:TD. unfold dec_fire.
  cbn [CFire_etype CFire_firing CFire_target CFire_munition CFire_event CFire_mission CFire_location CFire_units CFire_warhead CFire_fuze CFire_quantity CFire_rate CFire_velocity CFire_range
    Fire_firing_entity_id Fire_target_entity_id Fire_entity_id Fire_event_id Fire_fire_mission_index Fire_location_in_world Fire_descriptor Fire_velocity Fire_range].
  rewrite !eid_back, event_back, etype_back. do 4 (split; [reflexivity|]).
  split; [destruct (Z.eqb_spec (Fire_fire_mission_index x) 0) as [->|]; reflexivity|]. split; [exact L|]. split; [|split; [|split; [apply speed_back|exact R]]].
  2:{ unfold shot_kept, munition_kind, expendable_kind, KIND_MUNITION, KIND_EXPENDABLE in *. intros N1 N2. unfold td in TD.
      destruct (Fire_descriptor x) as [t0 mu|t0|t0 mat fo]; cbn in TD, N1, N2 |- *; injection TD as <- <- <- <- <-;
      rewrite (proj2 (Z.eqb_neq _ _) N1), (proj2 (Z.eqb_neq _ _) N2); reflexivity. }
  unfold td in TD. unfold descriptor_kept, munition_kind, expendable_kind, KIND_MUNITION, KIND_EXPENDABLE in *.
  destruct (Fire_descriptor x) as [t0 mu|t0|t0 mat fo]; cbn in TD; injection TD as <- <- <- <- <-; (split; [destruct (et_kind t0 =? 2); [reflexivity|destruct (et_kind t0 =? 8); reflexivity]|]); try exact I.
  - intros K. rewrite K. cbn. destruct WD as (_ & _ & _ & W3 & W4). unfold u16 in *. unfold dec_munition. cbn [unopt]. rewrite !count_back by lia. reflexivity.
  - intros K. rewrite K. reflexivity.
Qed.
(*@C47 A Detonation: in the same way, with the explosion's material and force when the entity type is neither a munition nor an expendable, the result, the
 location relative to the target, and every variable parameter. *)
Lemma cdis_detonation_content_pf : forall m g oe od p c p' x, translated m g oe od p c p' -> pdu_body p = BDetonation x -> wf_DescriptorRecord (Detonation_descriptor x) ->
  exists y, pdu_body p' = BDetonation y /\ detonation_kept g x y.
Proof.
  intros m g oe od p c p' x T E WD. apply translated_body in T. destruct T as (now & est & dst & r & est' & r' & dst' & EN & DE). rewrite E in EN.
  cbn [enc_body] in EN. injection EN as EN _ _. rewrite <- EN in DE. cbn [dec_body] in DE. injection DE as <- _ _. eexists. split; [reflexivity|].
  pose proof (world_back g (Detonation_world_location x)) as L. pose proof (coordinates_back (Detonation_entity_location x)) as C.
  unfold enc_detonation, detonation_kept, detonation_kept_at. destruct (enc_world g (Detonation_world_location x)) as [wl u]. destruct (enc_ecv (Detonation_entity_location x)) as [el ue]. cbn [fst snd] in L, C.
  set (td := match Detonation_descriptor x with
             | DMunition t m0 => (t, enc_munition m0, None, None) | DExpendable t => (t, no_munition, None, None)
             | DExplosion t mat f => (t, no_munition, Some mat, Some (enc_force f)) end).
  destruct td as [[[t [[[w f] q] rt]] mt] fc] eqn:TD. unfold dec_detonation.
  cbn [CDetonation_etype CDetonation_source CDetonation_target CDetonation_exploding CDetonation_event CDetonation_velocity CDetonation_location CDetonation_units CDetonation_warhead CDetonation_fuze
    CDetonation_quantity CDetonation_rate CDetonation_material CDetonation_force CDetonation_location_entity CDetonation_result CDetonation_vps fst snd
    Detonation_source_entity_id Detonation_target_entity_id Detonation_exploding_entity_id Detonation_event_id Detonation_velocity Detonation_world_location Detonation_descriptor
    Detonation_entity_location Detonation_result Detonation_variable_parameters].
  rewrite !eid_back, event_back, etype_back. do 4 (split; [reflexivity|]). split; [apply speed_back|]. split; [exact L|].
  cut (forall d', d' = (if et_kind t =? KIND_MUNITION then DMunition t (dec_munition w f q rt)
     else if et_kind t =? KIND_EXPENDABLE then DExpendable t else DExplosion t (unopt 0 mt) match fc with Some f0 => dec_force f0 | None => 0 end) ->
     descriptor_kept (Detonation_descriptor x) d' /\ explosion_kept (Detonation_descriptor x) d').
  { intros H. destruct (H _ eq_refl) as [H1 H2]. split; [exact H1|]. split; [exact H2|]. split; [exact C|]. split; [reflexivity|apply vps_back]. }
  intros d' ->. unfold td in TD. unfold descriptor_kept, explosion_kept, munition_kind, expendable_kind, KIND_MUNITION, KIND_EXPENDABLE in *.
  destruct (Detonation_descriptor x) as [t0 mu|t0|t0 mat fo]; cbn in TD; injection TD as <- <- <- <- <- <- <-; (split; [split; [destruct (et_kind t0 =? 2); [reflexivity|destruct (et_kind t0 =? 8); reflexivity]|]|]); try exact I.
  - intros K. rewrite K. cbn. destruct WD as (_ & _ & _ & W3 & W4). unfold u16 in *. unfold dec_munition. cbn [unopt]. rewrite !count_back by lia. reflexivity.
  - intros K. rewrite K. reflexivity.
  - intros K1 K2. rewrite (proj2 (Z.eqb_neq _ _) K1), (proj2 (Z.eqb_neq _ _) K2). eexists. split; [reflexivity|]. apply force_back.
Qed.
(*@C47 The descriptor of a munition whose entity type is not of the munition kind is lost: the warhead, for instance, arrives as 0. *)
Lemma cdis_fire_descriptor_refuted_pf : exists m g oe od p c p' x y, translated m g oe od p c p' /\ pdu_body p = BFire x /\ wf_DescriptorRecord (Fire_descriptor x) /\ pdu_body p' = BFire y /\
  match Fire_descriptor x, Fire_descriptor y with DMunition _ a, DMunition _ b => md_warhead b <> md_warhead a | _, _ => False end.
Proof.
  set (g := MkGeo (fun x y z => (x, y, z)) (fun x y z => (x, y, z))).
  set (x := MkFire zero_id zero_id zero_id zero_event 0 zero_loc (DMunition (MkEntityType 1 2 0 0 0 0 0) (MkMunitionDescriptor 1000 0 1 0)) zero_vec 0).
  set (p := MkPdu (header_new 7 1 2) (BFire x)). destruct (encode g new_full_update 0 enc_state_new p) as [[[c r] es]|] eqn:E; [|vm_compute in E; discriminate E].
  destruct (decode Wrapping g new_full_update dec_state_new c) as [bs [[p' r'] ds]|] eqn:D.
  - exists Wrapping, g, new_full_update, new_full_update, p, c, p', x. vm_compute in E. injection E as <- _ _. vm_compute in D. injection D as <- <- _ _. eexists.
    split; [|split; [reflexivity|split; [|split; [reflexivity|vm_compute; discriminate]]]].
    + exists 0, enc_state_new, dec_state_new. do 4 eexists. split; vm_compute; reflexivity.
    + vm_compute. repeat split; congruence.
  - exfalso. vm_compute in E. injection E as <- _ _. vm_compute in D. discriminate D.
Qed.
(*@C47 A Receiver. *)
Lemma cdis_receiver_content_pf : forall m g oe od p c p' x, translated m g oe od p c p' -> pdu_body p = BReceiver x ->
  exists y, pdu_body p' = BReceiver y /\ receiver_kept x y.
Proof.
  intros m g oe od p c p' x T E. apply translated_body in T. destruct T as (now & est & dst & r & est' & r' & dst' & EN & DE). rewrite E in EN.
  cbn [enc_body] in EN. injection EN as EN _ _. rewrite <- EN in DE. cbn [dec_body] in DE. injection DE as <- _ _. eexists. split; [reflexivity|].
  unfold dec_receiver, enc_receiver, receiver_kept. cbn [CReceiver_radio CReceiver_number CReceiver_state CReceiver_power CReceiver_tradio CReceiver_tnumber
    Receiver_radio_reference_id Receiver_radio_number Receiver_receiver_state Receiver_received_power Receiver_transmitter_radio_reference_id Receiver_transmitter_radio_number].
  rewrite !eid_back. do 3 (split; [reflexivity|]). split; [|split; reflexivity]. apply (whole (-32768) 32767); lia.
Qed.
(*@C47 A Signal: the data, and the encoding scheme of encoded audio with its rate and number of samples. For the other schemes rate and number of samples are lost: they arrive as zero. *)
Lemma cdis_signal_content_pf : forall m g oe od p c p' x, translated m g oe od p c p' -> pdu_body p = BSignal x ->
  exists y, pdu_body p' = BSignal y /\ signal_kept x y.
Proof.
  intros m g oe od p c p' x T E. apply translated_body in T. destruct T as (now & est & dst & r & est' & r' & dst' & EN & DE). rewrite E in EN.
  cbn [enc_body] in EN. injection EN as EN _ _. rewrite <- EN in DE. cbn [dec_body] in DE. injection DE as <- _ _. eexists. split; [reflexivity|].
  unfold dec_signal, enc_signal, signal_kept. cbn [CSignal_radio CSignal_number CSignal_encoding CSignal_tdl CSignal_rate CSignal_samples CSignal_data
    Signal_radio_reference_id Signal_radio_number Signal_encoding_scheme Signal_tdl_type Signal_sample_rate Signal_samples Signal_data].
  rewrite !eid_back. do 4 (split; [reflexivity|]). destruct (Signal_encoding_scheme x) as [ec et|ec en|ec ev|ec ei eo en|ec]; cbn; auto.
  split; [|split; reflexivity]. eexists. split; [reflexivity|]. intros H. apply Z.mod_small. exact H.
Qed.

(** ** Bodies with state *)
Lemma alt_back t : unopt zero_type (option_map dec_etype (if etype_eqb t zero_type then None else Some (enc_etype t))) = t.
Proof.
  destruct (etype_eqb t zero_type) eqn:E; cbn [option_map unopt]; [|apply etype_back].
  unfold etype_eqb in E. repeat (apply andb_true_iff in E; destruct E as [E ?H]). destruct t. cbn in *. repeat match goal with H : (_ =? _) = true |- _ => apply Z.eqb_eq in H end. subst. reflexivity.
Qed.
Lemma of_octets_acc l : forall acc, of_octets l acc = acc * 256 ^ Z.of_nat (length l) + of_octets l 0.
Proof.
  induction l as [|b l IH]; intros acc; cbn [of_octets length]; [rewrite Z.pow_0_r; lia|]. rewrite IH, (IH (0 * 256 + b)), Nat2Z.inj_succ, Z.pow_succ_r by lia. ring.
Qed.
Lemma of_octets_app a b acc : of_octets (a ++ b) acc = of_octets b (of_octets a acc).
Proof. revert acc. induction a as [|x a IH]; intros acc; [reflexivity|]. apply IH. Qed.
Lemma octets_back l : bytes l -> octets_of (length l) (of_octets l 0) = l.
Proof.
  induction l as [|b l IH] using rev_ind; intros H; [reflexivity|]. rewrite app_length, Nat.add_1_r. cbn [octets_of]. rewrite of_octets_app. cbn [of_octets].
  assert (B : bytes l /\ 0 <= b < 256).
  { unfold bytes in *. apply Forall_app in H. destruct H as [H1 H2]. inversion H2; subst. split; [exact H1|]. unfold u8 in *; lia. }
  destruct B as [Bl Bb]. rewrite Z.div_add_l, Z.div_small, Z.add_0_r by lia. rewrite IH by exact Bl. f_equal. f_equal. rewrite Z.add_comm, Z.mod_add by lia. apply Z.mod_small. lia.
Qed.
Lemma of_octets_pos l : bytes l -> forall acc, 0 <= acc -> 0 <= of_octets l acc.
Proof.
  induction l as [|b l IH]; intros H acc A; cbn; [exact A|]. inversion H; subst. apply IH; [assumption|]. unfold u8 in *. lia.
Qed.
Lemma of_octets_zero l : bytes l -> of_octets l 0 = 0 -> l = repeat 0 (length l).
Proof.
  intros B Z. rewrite <- (octets_back l B) at 1. rewrite Z. clear. induction (length l) as [|n IH]; [reflexivity|]. cbn [octets_of repeat]. change (0 / 256) with 0. change (0 mod 256) with 0. rewrite IH.
  clear IH. induction n as [|n IH]; [reflexivity|]. cbn [repeat app]. now rewrite IH.
Qed.
Lemma dr_other_back d : wf_DrOther (dr_other d) -> dr_ok d -> dr_algorithm d <> 0 ->
  unopt zero_dr_other (option_map (dec_dr_other (dr_algorithm d)) (enc_dr_other (dr_algorithm d) (dr_other d))) = dr_other d.
Proof.
  intros W K N. assert (R : RT (w_dr_other (dr_other d)) (p_dr_other (dr_algorithm d)) (dr_other d) 15 15) by (apply RT_dr_other; [exact W|exact K]).
  destruct R as (bs & E & L & P). unfold enc_dr_other. rewrite (proj2 (Z.eqb_neq _ _) N). unfold dr_other_value. rewrite E.
  assert (B : bytes bs).
  { clear - E W. destruct (dr_other d) as [l|a b c|n x y z]; cbn [w_dr_other wf_DrOther] in *; injection E as <-.
    - rewrite app_nil_r. apply W.
    - cbn. repeat constructor; try lia; apply Z.mod_pos_bound; lia.
    - cbn. repeat constructor; try lia; apply Z.mod_pos_bound; lia. }
  assert (LN : length bs = 15%nat) by (unfold zlen in L; lia).
  unfold some_nonzero. destruct (Z.eqb_spec (of_octets bs 0) 0) as [Z|Z]; cbn [option_map unopt].
  - pose proof (of_octets_zero bs B Z) as Q. rewrite LN in Q.
    destruct (dr_other d) as [l|a b c|n x y z]; cbn [w_dr_other] in E; injection E as E.
    + rewrite app_nil_r in E. rewrite <- E in Q. rewrite Q. reflexivity.
    + exfalso. rewrite <- E in Q. cbn in Q. discriminate Q.
    + exfalso. rewrite <- E in Q. cbn in Q. discriminate Q.
  - unfold dec_dr_other. rewrite <- LN, octets_back by exact B. specialize (P []). rewrite app_nil_r in P. now rewrite P.
Qed.
Lemma nonzero_back z : unopt 0 (some_nonzero z) = z.
Proof. unfold some_nonzero. destruct (Z.eqb_spec z 0) as [->|]; reflexivity. Qed.
Lemma velocity_sent alg v : moves alg -> enc_es_velocity alg v = Some (enc_velocity v).
Proof. intros [A B]. unfold enc_es_velocity. now rewrite (proj2 (Z.eqb_neq _ _) A), (proj2 (Z.eqb_neq _ _) B). Qed.
Lemma velocity_unsent alg v : ~ moves alg -> enc_es_velocity alg v = None.
Proof. intros H. unfold enc_es_velocity. destruct (Z.eqb_spec alg 0); [reflexivity|]. destruct (Z.eqb_spec alg 1); [reflexivity|]. exfalso. apply H. split; assumption. Qed.
Lemma acceleration_unsent alg v : ~ accelerates alg -> enc_dr_acceleration alg v = None.
Proof.
  intros H. unfold enc_dr_acceleration. destruct (_ || _) eqn:E; [exfalso; apply H|reflexivity].
  repeat (apply orb_prop in E; destruct E as [E|E]); apply Z.eqb_eq in E; subst; unfold accelerates; cbn; auto.
Qed.
Lemma rotation_unsent alg v : ~ rotates alg -> enc_dr_angular alg v = None.
Proof.
  intros H. unfold enc_dr_angular. destruct (_ || _) eqn:E; [exfalso; apply H|reflexivity].
  repeat (apply orb_prop in E; destruct E as [E|E]); apply Z.eqb_eq in E; subst; unfold rotates; cbn; auto.
Qed.
Lemma acceleration_sent alg v : accelerates alg -> enc_dr_acceleration alg v = Some (enc_acceleration v).
Proof. intros H. unfold enc_dr_acceleration. destruct H as [<-|[<-|[<-|[<-|[]]]]]; reflexivity. Qed.
Lemma rotation_sent alg v : rotates alg -> enc_dr_angular alg v = Some (enc_angular v).
Proof. intros H. unfold enc_dr_angular. destruct H as [<-|[<-|[<-|[<-|[]]]]]; reflexivity. Qed.
Lemma capability_back w k d : k <> 0 -> ec_word (capabilities_from_bytes w k d) = w.
Proof. intros H. unfold capabilities_from_bytes. now rewrite (proj2 (Z.eqb_neq _ _) H). Qed.
Ltac opened T E EN DE := apply translated_body in T; destruct T as (now & est & dst & r & est' & r' & dst' & EN & DE); rewrite E in EN; cbn [enc_body] in EN.
Ltac es_proj := cbn [CEntityState_units CEntityState_full CEntityState_id CEntityState_force CEntityState_etype CEntityState_alt CEntityState_velocity CEntityState_location CEntityState_orientation
    CEntityState_appearance CEntityState_dr_algorithm CEntityState_dr_other CEntityState_dr_acceleration CEntityState_dr_angular CEntityState_marking CEntityState_capabilities CEntityState_vps
    EntityState_entity_id EntityState_force_id EntityState_entity_type EntityState_alternative_entity_type EntityState_velocity EntityState_location EntityState_orientation EntityState_appearance
    EntityState_dr EntityState_marking EntityState_capabilities EntityState_variable_parameters dr_algorithm dr_other dr_acceleration dr_velocity option_map unopt].
(** what every decoded entity state has of the movement *)
Lemma movement_back g oe od st x full units fo ty lo ori ap mk :
  let alg := dr_algorithm (EntityState_dr x) in
  let c := MkCEntityState units full (enc_eid (EntityState_entity_id x)) fo ty
    (if etype_eqb (EntityState_alternative_entity_type x) zero_type then None else Some (enc_etype (EntityState_alternative_entity_type x)))
    (enc_es_velocity alg (EntityState_velocity x)) lo ori ap alg (enc_dr_other alg (dr_other (EntityState_dr x))) (enc_dr_acceleration alg (dr_acceleration (EntityState_dr x)))
    (enc_dr_angular alg (dr_velocity (EntityState_dr x))) mk (enc_capabilities oe (EntityState_capabilities x)) (map enc_vp (EntityState_variable_parameters x)) in
  movement_kept (o_complete oe) x (fst (dec_es g od st c)).
Proof.
  intros alg c. unfold c, movement_kept, dec_es. cbv zeta. cbn [fst]. es_proj. rewrite alt_back, eid_back. fold alg.
  do 3 (split; [reflexivity|]).
  split; [intros H; rewrite velocity_sent by exact H; apply speed_back|].
  split; [intros H; rewrite velocity_unsent by exact H; reflexivity|].
  split; [intros H; rewrite acceleration_sent by exact H; apply acceleration_back|].
  split; [intros H; rewrite acceleration_unsent by exact H; reflexivity|].
  split; [intros H; rewrite rotation_sent by exact H; apply turning_back|].
  split; [intros H; rewrite rotation_unsent by exact H; reflexivity|].
  split; [intros N W K; now apply dr_other_back|].
  split; [|apply vps_back].
  intros OC K. rewrite capability_back by exact K. unfold enc_capabilities. rewrite OC. apply nonzero_back.
Qed.
Lemma dec_body_es g od dst c b r s : dec_body g od dst (CBEntityState c) = (b, r, s) -> exists st, b = BEntityState (fst (dec_es g od st c)).
Proof. cbn [dec_body]. intros H. exists (dn_es dst (dec_eid (CEntityState_id c))). destruct (dec_es g od _ c) as [d u]. injection H as <- _ _. reflexivity. Qed.
Lemma dec_body_ee g od dst c b r s : dec_body g od dst (CBEmission c) = (b, r, s) -> exists st, b = BElectromagneticEmission (fst (dec_ee od st c)).
Proof. cbn [dec_body]. intros H. exists (dn_ee dst (dec_eid (CEmission_id c))). destruct (dec_ee od _ c) as [d u]. injection H as <- _ _. reflexivity. Qed.
Lemma dec_body_des g od dst c b r s : dec_body g od dst (CBDesignator c) = (b, r, s) -> exists st, b = BDesignator (fst (dec_designator g st c)).
Proof. cbn [dec_body]. intros H. exists (dn_des dst (dec_eid (CDesignator_id c))). destruct (dec_designator g _ c) as [d u]. injection H as <- _ _. reflexivity. Qed.
Lemma dec_body_tx g od dst c b r s : dec_body g od dst (CBTransmitter c) = (b, r, s) -> exists st, b = BTransmitter (fst (dec_transmitter g od st c)).
Proof. cbn [dec_body]. intros H. exists (dn_tx dst (dec_eid (CTransmitter_radio c), CTransmitter_number c)). destruct (dec_transmitter g od _ c) as [d u]. injection H as <- _ _. reflexivity. Qed.
Lemma dec_body_iff g od dst c b r s : dec_body g od dst (CBIff c) = (b, r, s) -> exists st, b = BIff (fst (dec_iff od st c)).
Proof. cbn [dec_body]. intros H. exists (dn_iff dst (dec_eid (CIff_emitting c))). destruct (dec_iff od _ c) as [d u]. injection H as <- _ _. reflexivity. Qed.
(*@C47 An Entity State, in every update, full or partial, whatever the encoder and the decoder have seen before: the entity, its alternative type, the dead reckoning
 algorithm with those of the velocity, acceleration and rotation that the algorithm uses, its other parameters, the capabilities (when the encoder is set to completeness) and
 every variable parameter. *)
Lemma cdis_entity_state_movement_pf : forall m g oe od p c p' x, translated m g oe od p c p' -> pdu_body p = BEntityState x ->
  exists y, pdu_body p' = BEntityState y /\ movement_kept (o_complete oe) x y.
Proof.
  intros m g oe od p c p' x T E. opened T E EN DE. unfold enc_es in EN. cbv zeta in EN.
  destruct (partial_ok oe _ now _).
  - injection EN as EN _ _. rewrite <- EN in DE. apply dec_body_es in DE. destruct DE as [st ->]. eexists. split; [reflexivity|]. apply movement_back.
  - destruct (enc_world g (EntityState_location x)) as [loc units]. destruct (cmarking_new _) as [mk|]; [|discriminate].
    injection EN as EN _ _. rewrite <- EN in DE. apply dec_body_es in DE. destruct DE as [st ->]. eexists. split; [reflexivity|]. apply movement_back.
Qed.
(*@C47 An Entity State in a full update: also the force, the type, the location, the orientation and the appearance. *)
Lemma cdis_entity_state_identity_pf : forall m g oe od p c p' x, translated m g oe od p c p' -> pdu_body p = BEntityState x -> full_update (cp_body c) ->
  exists y, pdu_body p' = BEntityState y /\ identity_kept g x y.
Proof.
  intros m g oe od p c p' x T E FU. opened T E EN DE. unfold enc_es in EN. cbv zeta in EN.
  destruct (partial_ok oe _ now _).
  - injection EN as EN _ _. rewrite <- EN in FU. destruct FU as [FU _]. discriminate FU.
  - pose proof (world_back g (EntityState_location x)) as L. destruct (enc_world g (EntityState_location x)) as [loc units]. cbn [fst snd] in L. destruct (cmarking_new _) as [mk|]; [|discriminate].
    injection EN as EN _ _. rewrite <- EN in DE. apply dec_body_es in DE. destruct DE as [st ->]. eexists. split; [reflexivity|].
    unfold identity_kept, identity_kept_at, dec_es. cbv zeta. cbn [fst]. es_proj. rewrite etype_back. split; [reflexivity|]. split; [reflexivity|]. split; [exact L|]. split; [apply orientation_back|].
    unfold appearance_from_bytes. reflexivity.
Qed.
(*@C47 The marking in a full update: a text of up to 11 octets arrives as it was. *)
Lemma cdis_marking_content_pf : forall m g oe od p c p' x s, translated m g oe od p c p' -> pdu_body p = BEntityState x -> full_update (cp_body c) ->
  text s (mk_string (EntityState_marking x)) -> zlen (mk_string (EntityState_marking x)) <= 11 ->
  exists y, pdu_body p' = BEntityState y /\ mk_string (EntityState_marking y) = mk_string (EntityState_marking x).
Proof.
  intros m g oe od p c p' x s T E FU TX LE. opened T E EN DE. unfold enc_es in EN. cbv zeta in EN.
  destruct (partial_ok oe _ now _).
  - injection EN as EN _ _. rewrite <- EN in FU. destruct FU as [FU _]. discriminate FU.
  - destruct (enc_world g (EntityState_location x)) as [loc units]. destruct TX as [TX TE]. rewrite <- TE in EN, LE |- *. rewrite utf8_decode_encode in EN by exact TX.
    assert (MK : exists six, cmarking_new s = Some (MkCMarking six s)).
    { unfold cmarking_new. rewrite <- utf8_encode_len. destruct (Z.ltb_spec 11 (zlen (utf8_encode s))); [lia|]. eexists. reflexivity. }
    destruct MK as [six MK]. rewrite MK in EN.
    injection EN as EN _ _. rewrite <- EN in DE. apply dec_body_es in DE. destruct DE as [st ->]. eexists. split; [reflexivity|].
    unfold dec_es. cbv zeta. cbn [fst]. es_proj. unfold dec_marking. cbn. reflexivity.
Qed.

(** ** Designator *)
Lemma zero_fine b : f32_zero b = true -> f32_value b = 0%R.
Proof.
  unfold f32_zero. intros H. apply orb_true_iff in H. destruct H as [H|H]; apply Z.eqb_eq in H; subst b; unfold f32_value;
  [change (f32_exponent 0 =? 0) with true; change (f32_fraction 0) with 0|change (f32_exponent (2 ^ 31) =? 0) with true; change (f32_fraction (2 ^ 31)) with 0];
  cbv iota; rewrite Rmult_0_l; apply Rmult_0_r.
Qed.
Lemma finite_zero : f32_finite 0. Proof. split; [lia|discriminate]. Qed.
Lemma value_zero : f32_value 0 = 0%R. Proof. now apply zero_fine. Qed.
Lemma nothing_carried eps lo hi b : (0 <= eps)%R -> (lo <= 0 <= hi)%R -> f32_zero b = true -> carried eps lo hi b 0.
Proof.
  intros E B Z F. split; [exact finite_zero|]. rewrite value_zero, (zero_fine b Z). unfold within, clip. rewrite Rmin_right, Rmax_right by lra. rewrite Rminus_0_r, Rabs_R0. exact E.
Qed.
Lemma no_coordinates v : vec_zero v = true -> coordinates_kept v zero_vec.
Proof.
  unfold vec_zero. intros H. apply andb_true_iff in H. destruct H as [H H3]. apply andb_true_iff in H. destruct H as [H1 H2].
  intros _. split; intros _; (split; [|split]); apply nothing_carried; solve [lra|split; lra|assumption].
Qed.
Lemma spot_back v : let '(s, u) := (if vec_zero v then (None, 0) else let (c, u) := enc_ecv v in (Some c, u)) in
  coordinates_kept v (dec_ecv (unopt zero_cecv s) u) /\ coordinates_kept v (unopt zero_vec (option_map (fun c => dec_ecv c u) s)).
Proof.
  destruct (vec_zero v) eqn:Z.
  - change (dec_ecv (unopt zero_cecv None) 0) with (MkVectorF32 (dec_component 0 0) (dec_component 0 0) (dec_component 0 0)).
    assert (Q : dec_component 0 0 = 0) by (vm_compute; reflexivity). rewrite Q. split; now apply no_coordinates.
  - pose proof (coordinates_back v) as C. destruct (enc_ecv v) as [c u]. split; exact C.
Qed.
Lemma designated_back e : dec_eid (unopt zero_ceid (if eid_eqb e zero_id then None else Some (enc_eid e))) = e.
Proof.
  destruct (eid_eqb e zero_id) eqn:Z; cbn [unopt]; [|apply eid_back]. apply eid_eqb_eq in Z. rewrite Z. reflexivity.
Qed.
Ltac des_proj := cbn [CDesignator_units CDesignator_full CDesignator_id CDesignator_code_name CDesignator_designated CDesignator_code CDesignator_power CDesignator_wavelength
    CDesignator_spot_entity CDesignator_spot_location CDesignator_dr_algorithm CDesignator_dr_acceleration
    Designator_designating_entity_id Designator_system_name Designator_designated_entity_id Designator_code Designator_power Designator_wavelength
    Designator_spot_wrt_designated_entity Designator_spot_location Designator_dead_reckoning_algorithm Designator_linear_acceleration option_map unopt fst snd].
(*@C47 A Designator, in every update, full or partial, whatever the encoder and the decoder have seen before: both entities, the spot with respect to the
 designated entity, the dead reckoning algorithm and the acceleration it uses. *)
Lemma cdis_designator_aim_pf : forall m g oe od p c p' x, translated m g oe od p c p' -> pdu_body p = BDesignator x ->
  exists y, pdu_body p' = BDesignator y /\ aim_kept x y.
Proof.
  intros m g oe od p c p' x T E. opened T E EN DE. unfold enc_designator in EN. cbv zeta in EN. pose proof (spot_back (Designator_spot_wrt_designated_entity x)) as S.
  destruct (if vec_zero _ then _ else _) as [spot eu]. destruct S as [S _].
  destruct (partial_ok oe _ now _); [|destruct (enc_world g (Designator_spot_location x)) as [loc wu]];
  injection EN as EN _ _; rewrite <- EN in DE; apply dec_body_des in DE; destruct DE as [st ->]; eexists; (split; [reflexivity|]);
  unfold aim_kept, dec_designator; cbv zeta; des_proj; rewrite eid_back, designated_back; do 2 (split; [reflexivity|]); (split; [exact S|]); (split; [reflexivity|]);
  (split; [intros A; rewrite acceleration_sent by exact A; apply acceleration_back|intros A; rewrite acceleration_unsent by exact A; reflexivity]).
Qed.
(*@C47 A Designator in a full update: also the system, the code, the power, the wavelength and the place of the spot. *)
Lemma cdis_designator_laser_pf : forall m g oe od p c p' x, translated m g oe od p c p' -> pdu_body p = BDesignator x -> full_update (cp_body c) ->
  exists y, pdu_body p' = BDesignator y /\ laser_kept g x y.
Proof.
  intros m g oe od p c p' x T E FU. opened T E EN DE. unfold enc_designator in EN. cbv zeta in EN.
  destruct (if vec_zero _ then _ else _) as [spot eu].
  destruct (partial_ok oe _ now _).
  - injection EN as EN _ _. rewrite <- EN in FU. destruct FU as [FU _]. discriminate FU.
  - pose proof (world_back g (Designator_spot_location x)) as L. destruct (enc_world g (Designator_spot_location x)) as [loc wu]. cbn [fst snd] in L.
    injection EN as EN _ _; rewrite <- EN in DE; apply dec_body_des in DE; destruct DE as [st ->]; eexists; (split; [reflexivity|]).
    unfold laser_kept, laser_kept_at, dec_designator; cbv zeta; des_proj. do 2 (split; [reflexivity|]). unfold f32_to_u32. change (2 ^ 32 - 1) with 4294967295.
    do 2 (split; [apply (whole_back_u 0); lia|]). exact L.
Qed.

(** ** Transmitter *)
Lemma key_back k : 0 <= ck_key k < 32768 -> crypto_from_u16 (crypto_to_u16 k) = k.
Proof.
  destruct k as [k b]; cbn [ck_key]. intros H. unfold crypto_to_u16, crypto_from_u16. cbn [ck_key ck_diphase]. rewrite Z.shiftl_mul_pow2 by lia. change (2 ^ 1) with 2. rewrite Z.mod_small by lia. f_equal.
  - rewrite Z.shiftr_div_pow2 by lia. change (2 ^ 1) with 2. rewrite Z.add_comm, Z.div_add by lia. destruct b; reflexivity.
  - change 1 with (Z.ones 1) at 2. rewrite Z.land_ones by lia. change (2 ^ 1) with 2. rewrite Z.add_comm, Z.mod_add by lia. destruct b; reflexivity.
Qed.
Lemma modulation_back t : narrow_modulation t -> dec_modulation (enc_modulation t) = t.
Proof.
  destruct t as [s mm y]. unfold narrow_modulation, dec_modulation, enc_modulation. cbn [mt_spread mt_major mt_system CModulation_spread CModulation_major CModulation_detail CModulation_system]. intros [Y M].
  rewrite (Z.mod_small y) by lia. f_equal; [destruct s as [[] [] []]; reflexivity|].
  destruct mm as [|k d|d]; cbn [major_to_bytes fst snd]; [reflexivity| |].
  - destruct M as [K D]. rewrite !Z.mod_small by lia. unfold major_from_bytes. rewrite (proj2 (Z.eqb_neq k 0)) by lia. now rewrite (proj2 (Z.leb_le 1 k)), (proj2 (Z.leb_le k 8)) by lia.
  - rewrite (Z.mod_small d) by lia. reflexivity.
Qed.
Lemma pattern_back p : pattern_kept p (dec_bap (enc_bap p)).
Proof.
  unfold pattern_kept, enc_bap, dec_bap.
  cbn [CBeamAntennaPattern_psi CBeamAntennaPattern_theta CBeamAntennaPattern_phi CBeamAntennaPattern_az CBeamAntennaPattern_el CBeamAntennaPattern_ref CBeamAntennaPattern_e_z CBeamAntennaPattern_e_x CBeamAntennaPattern_phase bap_direction or_psi or_theta or_phi bap_azimuth bap_elevation bap_reference bap_ez bap_ex bap_phase].
  do 5 (split; [apply plain_angle|]). split; [reflexivity|]. do 2 (split; [apply field_is_kept|]). apply plain_angle.
Qed.
Ltac tx_proj := cbn [CTransmitter_units CTransmitter_full CTransmitter_radio CTransmitter_number CTransmitter_rtype CTransmitter_state CTransmitter_source CTransmitter_antenna CTransmitter_relative
    CTransmitter_ptype CTransmitter_frequency CTransmitter_bandwidth CTransmitter_power CTransmitter_modulation CTransmitter_crypto CTransmitter_key CTransmitter_modparams CTransmitter_pattern CTransmitter_vtps
    Transmitter_radio_reference_id Transmitter_radio_number Transmitter_radio_type Transmitter_transmit_state Transmitter_input_source Transmitter_antenna_location Transmitter_relative_antenna_location
    Transmitter_antenna_pattern_type Transmitter_frequency Transmitter_bandwidth Transmitter_power Transmitter_modulation_type Transmitter_crypto_system Transmitter_crypto_key_id
    Transmitter_modulation_parameters Transmitter_antenna_pattern Transmitter_vtps option_map unopt fst snd].
(*@C47 A Transmitter, in every update, full or partial, whatever the encoder and the decoder have seen before: the radio, its state and input, the cryptographic system
 and key (15 bits), the modulation parameters, the antenna pattern and the variable transmitter parameters. *)
Lemma cdis_transmitter_transmission_pf : forall m g oe od p c p' x, translated m g oe od p c p' -> pdu_body p = BTransmitter x ->
  exists y, pdu_body p' = BTransmitter y /\ transmission_kept x y.
Proof.
  intros m g oe od p c p' x T E. opened T E EN DE. unfold enc_transmitter in EN. cbv zeta in EN.
  destruct (partial_ok oe _ now _); [|destruct (enc_world g _) as [loc wu], (enc_ecv _) as [rel eu]];
  injection EN as EN _ _; rewrite <- EN in DE; apply dec_body_tx in DE; destruct DE as [st ->]; eexists; (split; [reflexivity|]);
  unfold transmission_kept, dec_transmitter; cbv zeta; tx_proj; rewrite eid_back, nonzero_back; do 5 (split; [reflexivity|]);
  (split; [intros N K; rewrite (proj2 (Z.eqb_neq _ _) N); cbn [option_map unopt]; now apply key_back|]);
  (split; [intros l ->; reflexivity|]);
  (split; [intros a ->; cbn [option_map unopt]; split; [reflexivity|]; eexists; split; [reflexivity|apply pattern_back]|]); reflexivity.
Qed.
(*@C47 A Transmitter in a full update: also the radio type, both antenna locations, the frequency, the bandwidth, the power and the modulation. *)
Lemma cdis_transmitter_radio_pf : forall m g oe od p c p' x, translated m g oe od p c p' -> pdu_body p = BTransmitter x -> full_update (cp_body c) ->
  exists y, pdu_body p' = BTransmitter y /\ radio_kept g x y.
Proof.
  intros m g oe od p c p' x T E FU. opened T E EN DE. unfold enc_transmitter in EN. cbv zeta in EN.
  destruct (partial_ok oe _ now _).
  - injection EN as EN _ _. rewrite <- EN in FU. destruct FU as [FU _]. discriminate FU.
  - pose proof (world_back g (Transmitter_antenna_location x)) as L. pose proof (coordinates_back (Transmitter_relative_antenna_location x)) as C.
    destruct (enc_world g _) as [loc wu], (enc_ecv _) as [rel eu]. cbn [fst snd] in L, C.
    injection EN as EN _ _; rewrite <- EN in DE; apply dec_body_tx in DE; destruct DE as [st ->]; eexists; (split; [reflexivity|]).
    unfold radio_kept, radio_kept_at, dec_transmitter; cbv zeta; tx_proj. rewrite etype_back. split; [reflexivity|]. split; [exact L|]. split; [exact C|]. split; [apply hertz|].
    split; [intros F B; exact (proj2 (bandwidth_kept _ F B) F B)|]. split; [apply power_is_kept|]. apply modulation_back.
Qed.

(** ** IFF *)
Lemma event_back_opt e : unopt zero_event (option_map dec_event (if event_zero e then None else Some (enc_event e))) = e.
Proof.
  destruct (event_zero e) eqn:Z; cbn [option_map unopt]; [|apply event_back]. unfold event_zero in Z. apply andb_true_iff in Z. destruct Z as [Z Z3]. apply andb_true_iff in Z. destruct Z as [Z1 Z2].
  apply Z.eqb_eq in Z1, Z2, Z3. destruct e as [[s a] i]. cbn in *. subst. reflexivity.
Qed.
Lemma beam_back b : beam_kept b (dec_beam (enc_beam b)).
Proof. unfold beam_kept, dec_beam, enc_beam. cbn [cbd_az_center cbd_az_sweep cbd_el_center cbd_el_sweep cbd_sync bd_azc bd_azs bd_elc bd_els bd_sync]. do 4 (split; [apply beam_angle|]). apply sync_percent. Qed.
Lemma interrogation_back p : interrogation_kept p (dec_ip (enc_ip p)).
Proof.
  assert (W : forall b, arrives 1 0 1023 b (f32_of_int (f32_to_uint 65535 b))) by (intros b F R; apply (whole 0 65535); [lia|lia|exact F|lra]).
  unfold interrogation_kept, enc_ip, dec_ip.
  cbn [cip_erp cip_frequency cip_pgrf cip_pulse cip_burst cip_modes cip_s1 cip_s2 cip_s3 ip_erp ip_frequency ip_pgrf ip_pulse_width ip_burst ip_modes ip_s1 ip_s2 ip_s3].
  split; [apply (whole 0 255); lia|]. split; [intros F B; exact (proj2 (cff_kept _ F B) F B)|]. do 3 (split; [apply W|]). repeat split.
Qed.
Lemma layer2_back l : layer2_kept l (dec_l2 (enc_l2 l)).
Proof.
  unfold layer2_kept, enc_l2, dec_l2, enc_lh, dec_lh. cbv zeta. cbn [cl2_header cl2_beam cl2_op1 cl2_op2 cl2_params l2_header l2_beam l2_op1 l2_op2 l2_params clh_number clh_info lh_number lh_specific].
  do 2 (split; [reflexivity|]). split; [apply beam_back|]. do 2 (split; [reflexivity|]). induction (l2_params l) as [|q qs IH]; constructor; [apply interrogation_back|exact IH].
Qed.
Lemma mode5_back d : mode5_kept d (dec_m5 (enc_m5 d)).
Proof.
  destruct d as [x|x]; cbn [enc_m5 dec_m5 mode5_kept cm5i_status cm5i_formats cm5i_entity]; [rewrite eid_back; destruct x; reflexivity|]. eexists. split; [reflexivity|]. repeat split.
Qed.
Lemma layer3_back l : layer3_kept l (dec_l3 (enc_l3 l)).
Proof.
  unfold layer3_kept, enc_l3, dec_l3, enc_lh, dec_lh. cbv zeta. cbn [cl3_header cl3_site cl3_app cl3_basic cl3_records l3_header l3_sim l3_basic l3_records clh_number clh_info lh_number lh_specific].
  do 2 (split; [reflexivity|]). split; [destruct (l3_sim l); reflexivity|]. split; [apply mode5_back|reflexivity].
Qed.
Lemma layer4_back l : layer4_kept l (dec_l4 (enc_l4 l)).
Proof.
  unfold layer4_kept, enc_l4, dec_l4, enc_lh, dec_lh. cbv zeta. cbn [cl4_header cl4_site cl4_app cl4_basic cl4_records l4_header l4_sim l4_basic l4_records clh_number clh_info lh_number lh_specific].
  do 2 (split; [reflexivity|]). split; [destruct (l4_sim l); reflexivity|]. split; reflexivity.
Qed.
Lemma layer5_back l : layer5_kept l (dec_l5 (enc_l5 l)).
Proof.
  unfold layer5_kept, enc_l5, dec_l5, enc_lh, dec_lh. cbv zeta. cbn [cl5_header cl5_site cl5_app cl5_layers cl5_category cl5_records l5_header l5_sim l5_layers l5_category l5_records clh_number clh_info lh_number lh_specific].
  do 2 (split; [reflexivity|]). split; [destruct (l5_sim l); reflexivity|]. repeat split.
Qed.
Lemma each_back {A B} (P : A -> A -> Prop) (f : A -> B) (h : B -> A) o : (forall a, P a (h (f a))) -> each_or_none P o (option_map h (option_map f o)).
Proof. intros H. destruct o; cbn; auto. Qed.
Ltac iff_proj := cbn [CIff_units CIff_full CIff_emitting CIff_event CIff_antenna CIff_system CIff_designator CIff_specific CIff_data CIff_layer2 CIff_layer3 CIff_layer4 CIff_layer5
    Iff_emitting_entity_id Iff_event_id Iff_antenna Iff_system_id Iff_designator Iff_specific Iff_data Iff_layer_2 Iff_layer_3 Iff_layer_4 Iff_layer_5 fst snd].
(*@C47 An IFF PDU, in every update, full or partial, whatever the encoder and the decoder have seen before: the emitting entity, the event, the antenna location, the designator and
 specific information, the status, data fields and layers of the operational data, and each of the layers 2 to 5 (without the navigation source of a mode 5 transponder). *)
Lemma cdis_iff_content_pf : forall m g oe od p c p' x, translated m g oe od p c p' -> pdu_body p = BIff x ->
  exists y, pdu_body p' = BIff y /\ iff_kept x y.
Proof.
  intros m g oe od p c p' x T E. opened T E EN DE. unfold enc_iff in EN. cbv zeta in EN. pose proof (spot_back (Iff_antenna x)) as S.
  destruct (if vec_zero _ then _ else _) as [ant eu]. destruct S as [_ S].
  injection EN as EN _ _; rewrite <- EN in DE; apply dec_body_iff in DE; destruct DE as [st ->]; eexists; (split; [reflexivity|]).
  unfold iff_kept, dec_iff; cbv zeta; iff_proj. rewrite eid_back, event_back_opt, nonzero_back. do 2 (split; [reflexivity|]). split; [exact S|]. do 2 (split; [reflexivity|]).
  unfold dec_fod, enc_fod. cbn [cfo_status cfo_field1 cfo_layers cfo_field2 fo_status fo_field1 fo_layers fo_field2]. rewrite !nonzero_back. do 4 (split; [reflexivity|]).
  split; [apply each_back, layer2_back|]. split; [apply each_back, layer3_back|]. split; [apply each_back, layer4_back|apply each_back, layer5_back].
Qed.

(** ** Electromagnetic Emission: sorting and finding *)
Lemma key_eq_spec a : forall b, key_eq a b = true <-> a = b.
Proof.
  induction a as [|x a IH]; intros [|y b]; cbn; try (split; [discriminate|discriminate]); [split; reflexivity|]. rewrite andb_true_iff, Z.eqb_eq, IH.
  split; [intros [-> ->]; reflexivity|intros H; injection H as -> ->; auto].
Qed.
Lemma lex_cons x a y b : lex_le (x :: a) (y :: b) = true <-> x < y \/ (x = y /\ lex_le a b = true).
Proof. cbn. rewrite orb_true_iff, andb_true_iff, Z.ltb_lt, Z.eqb_eq. reflexivity. Qed.
Lemma lex_total a : forall b, lex_le a b = true \/ lex_le b a = true.
Proof.
  induction a as [|x a IH]; intros [|y b]; cbn [lex_le]; auto. change ((x <? y) || (x =? y) && lex_le a b) with (lex_le (x :: a) (y :: b)). change ((y <? x) || (y =? x) && lex_le b a) with (lex_le (y :: b) (x :: a)).
  rewrite !lex_cons. destruct (Z.lt_trichotomy x y) as [H|[H|H]]; auto. destruct (IH b); auto.
Qed.
Lemma lex_antisym a : forall b, lex_le a b = true -> lex_le b a = true -> a = b.
Proof.
  induction a as [|x a IH]; intros [|y b] H K; try reflexivity; try discriminate. apply lex_cons in H, K. destruct H as [H|[H H']], K as [K|[K K']]; try lia. subst. now rewrite (IH b).
Qed.
Lemma lex_trans a : forall b c, lex_le a b = true -> lex_le b c = true -> lex_le a c = true.
Proof.
  induction a as [|x a IH]; intros [|y b] [|z c] H K; try reflexivity; try discriminate. apply lex_cons in H, K. apply lex_cons. destruct H as [H|[H H']], K as [K|[K K']]; try lia.
  right. split; [lia|eauto].
Qed.
Section Sorting.
  Context {A : Type} (key : A -> list Z) (inj : forall a b, key a = key b -> a = b).
  Definition key_le (a b : A) : Prop := lex_le (key a) (key b) = true.
  Definition key_lt (a b : A) : Prop := key_le a b /\ a <> b.
  Lemma insert_in x l : forall a, In a (insert_by key x l) <-> a = x \/ In a l.
  Proof.
    induction l as [|y l IH]; intros a; cbn [insert_by]; [cbn; intuition|]. destruct (lex_le (key x) (key y)); [cbn; intuition|]. cbn [In]. rewrite IH. cbn [In]. intuition.
  Qed.
  Lemma sort_in l a : In a (sort_by key l) <-> In a l.
  Proof. unfold sort_by. induction l as [|y l IH]; cbn [fold_right]; [reflexivity|]. rewrite insert_in, IH. cbn. intuition. Qed.
  Lemma insert_sorted x l : StronglySorted key_le l -> StronglySorted key_le (insert_by key x l).
  Proof.
    induction 1 as [|y l S IH F]; cbn [insert_by]; [repeat constructor|]. destruct (lex_le (key x) (key y)) eqn:E.
    - constructor; [constructor; assumption|]. constructor; [exact E|]. eapply Forall_impl; [|exact F]. intros a H. eapply lex_trans; [exact E|exact H].
    - constructor; [exact IH|]. apply Forall_forall. intros a H. apply insert_in in H. destruct H as [->|H]; [|rewrite Forall_forall in F; now apply F].
      destruct (lex_total (key x) (key y)) as [T|T]; [congruence|exact T].
  Qed.
  Lemma sort_sorted l : StronglySorted key_le (sort_by key l).
  Proof. unfold sort_by. induction l as [|y l IH]; cbn [fold_right]; [constructor|]. now apply insert_sorted. Qed.
  Lemma dedup_in l : forall a, In a (dedup key l) <-> In a l.
  Proof.
    induction l as [|x l IH]; intros a; cbn [dedup]; [reflexivity|]. destruct (dedup key l) as [|y r] eqn:E.
    - cbn [In]. specialize (IH a). cbn [In] in IH. tauto.
    - destruct (key_eq (key x) (key y)) eqn:K.
      + apply key_eq_spec, inj in K. subst y. specialize (IH a). cbn [In] in *. tauto.
      + specialize (IH a). cbn [In] in *. tauto.
  Qed.
  Lemma dedup_sorted l : StronglySorted key_le l -> StronglySorted key_lt (dedup key l).
  Proof.
    induction 1 as [|x l S IH F]; cbn [dedup]; [constructor|]. destruct (dedup key l) as [|y r] eqn:E; [repeat constructor|].
    inversion IH as [|? ? S' F']; subst. rewrite Forall_forall in F'. destruct (key_eq (key x) (key y)) eqn:K.
    - apply key_eq_spec, inj in K. subst y. constructor; [exact S'|]. now apply Forall_forall.
    - assert (L : key_le x y). { rewrite Forall_forall in F. apply F. apply dedup_in. rewrite E. now left. }
      assert (N : x <> y). { intros <-. rewrite (proj2 (key_eq_spec _ _) eq_refl) in K. discriminate. }
      constructor; [exact IH|]. constructor; [split; assumption|]. apply Forall_forall. intros z Hz. destruct (F' z Hz) as [Lz Nz].
      split; [eapply lex_trans; [exact L|exact Lz]|]. intros <-. apply N. apply inj. now apply lex_antisym.
  Qed.
  Lemma sorted_nodup l : StronglySorted key_lt l -> NoDup l.
  Proof. induction 1 as [|x l S IH F]; constructor; [|exact IH]. intros H. rewrite Forall_forall in F. now destruct (F x H) as [_ N]. Qed.
  Lemma sort_dedup_in l a : In a (sort_dedup key l) <-> In a l.
  Proof. unfold sort_dedup. now rewrite dedup_in, sort_in. Qed.
  Lemma sort_dedup_nodup l : NoDup (sort_dedup key l).
  Proof. apply sorted_nodup, dedup_sorted, sort_sorted. Qed.
  Lemma find_in x l : In x l -> forall i, exists k, find_index key x l i = Some (i + Z.of_nat k) /\ nth_error l k = Some x.
  Proof.
    induction l as [|y l IH]; intros H i; [destruct H|]. cbn [find_index]. destruct (key_eq (key y) (key x)) eqn:K.
    - apply key_eq_spec, inj in K. subst y. exists 0%nat. split; [f_equal; lia|reflexivity].
    - destruct H as [->|H]; [rewrite (proj2 (key_eq_spec _ _) eq_refl) in K; discriminate|]. destruct (IH H (i + 1)) as (k & E & N). exists (S k). split; [rewrite E; f_equal; lia|exact N].
  Qed.
  Lemma found {B} (f : B -> A) (l : list B) (ls : list B) b : In b l -> incl l ls -> zlen ls <= 256 ->
    let t := sort_dedup key (map f l) in
    nth_error t (Z.to_nat (as_u8 (unopt 0 (find_index key (f b) t 0)))) = Some (f b).
  Proof.
    intros I C L t. assert (IN : In (f b) t) by (apply sort_dedup_in, in_map; exact I). destruct (find_in (f b) t IN 0) as (k & E & N). rewrite E. cbn [unopt].
    assert (K : (k < length t)%nat) by (apply nth_error_Some; congruence).
    assert (M : (length t <= length (map f ls))%nat). { apply NoDup_incl_length; [apply sort_dedup_nodup|]. intros a H. apply sort_dedup_in, in_map_iff in H. destruct H as (c & <- & H). apply in_map. now apply C. }
    rewrite map_length in M. unfold zlen in L. unfold as_u8. rewrite Z.mod_small by lia. rewrite Z.add_0_l, Nat2Z.id. exact N.
  Qed.
End Sorting.
Lemma cff_eq a b : CFrequencyFloat_mantissa a = CFrequencyFloat_mantissa b -> CFrequencyFloat_exponent a = CFrequencyFloat_exponent b -> a = b.
Proof. destruct a, b; cbn; now intros -> ->. Qed.
Lemma cfp_key_inj a b : cfp_key a = cfp_key b -> a = b.
Proof.
  destruct a as [[f1 f2] [r1 r2] e p [w1 w2]], b as [[g1 g2] [s1 s2] e' p' [v1 v2]]. unfold cfp_key, cff_key. cbn. intros H. injection H as -> -> -> -> -> -> -> ->. reflexivity.
Qed.
Lemma cbd_key_inj a b : cbd_key a = cbd_key b -> a = b.
Proof. destruct a as [a1 a2 a3 a4 a5], b as [b1 b2 b3 b4 b5]. unfold cbd_key. cbn [cbd_az_center cbd_az_sweep cbd_el_center cbd_el_sweep cbd_sync]. intros H. injection H as _ -> _ -> _ -> _ -> ->. reflexivity. Qed.
Lemma csa_key_inj a b : csa_key a = csa_key b -> a = b.
Proof. destruct a, b. unfold csa_key. cbn. intros H. injection H as -> ->. reflexivity. Qed.
Lemma emission_back d : emission_kept d (dec_fp (enc_fp d)).
Proof.
  unfold emission_kept, enc_fp, dec_fp. cbn [CFundamentalParameter_frequency CFundamentalParameter_range CFundamentalParameter_erp CFundamentalParameter_prf CFundamentalParameter_pulse fp_frequency fp_range fp_power fp_prf fp_width].
  split; [intros F B; exact (proj2 (cff_kept _ F B) F B)|]. split; [intros F B; exact (proj2 (cff_kept _ F B) F B)|]. split; [apply (whole 0 255); lia|]. split; [apply (whole 0 65535); lia|].
  intros F B; exact (proj2 (pulse_is_kept _ F B) F B).
Qed.
Lemma beams_of_in x p : In p (beams_of x) -> beam_in x (snd p).
Proof. unfold beams_of. intros H. apply in_flat_map in H. destruct H as (s & S & H). apply in_map_iff in H. destruct H as (b & <- & B). exists s. auto. Qed.
Lemma in_beams_of x s b : In s (EE_systems x) -> In b (es_beams s) -> In (es_number s, b) (beams_of x).
Proof. intros S B. unfold beams_of. apply in_flat_map. exists s. split; [exact S|]. now apply in_map with (f := fun b => (es_number s, b)). Qed.
Lemma flat_map_map {A B C} (f : B -> C) (h : A -> list B) l : flat_map (fun a => map f (h a)) l = map f (flat_map h l).
Proof. induction l as [|a l IH]; cbn; [reflexivity|]. now rewrite IH, map_app. Qed.
Lemma nth_of_error {A} (l : list A) n d a : nth_error l n = Some a -> nth n l d = a.
Proof. revert n. induction l as [|y l IH]; intros [|n] H; try discriminate; cbn in *; [now injection H|now apply IH]. Qed.
Lemma ebeam_back x s b u st : countable x -> In s (EE_systems x) -> In b (es_beams s) ->
  ebeam_kept b (dec_eb u st (es_number s) (full_params x) (full_beams x) (site_pairs x) (enc_eb true (full_params x) (full_beams x) (site_pairs x) b)).
Proof.
  intros ((lp & Lp & Cp) & (lb & Lb & Cb) & (lt & Lt & Ct)) S B. pose proof (in_beams_of x s b S B) as I.
  unfold ebeam_kept, dec_eb, enc_eb. cbv zeta.
  cbn [ceb_id ceb_param ceb_fp_index ceb_bd_index ceb_function ceb_density ceb_status ceb_kind ceb_category ceb_subcategory ceb_specific ceb_tracks
       be_number be_index be_parameters be_data be_function be_high_density be_status be_technique be_tracks unopt].
  split; [reflexivity|]. split; [reflexivity|].
  split.
  { assert (E : full_params x = sort_dedup cfp_key (map enc_fp (map (fun p => be_parameters (snd p)) (beams_of x)))) by (unfold full_params; now rewrite map_map). rewrite E.
    pose proof (found cfp_key cfp_key_inj enc_fp (map (fun p => be_parameters (snd p)) (beams_of x)) lp (be_parameters b)) as F. cbv zeta in F.
    rewrite (nth_of_error _ _ zero_cfp _ (F ltac:(apply in_map_iff; exists (es_number s, b); auto) ltac:(intros d H; apply in_map_iff in H; destruct H as (q & <- & Q); apply Cp; exists (snd q); split; [now apply beams_of_in|reflexivity]) Lp)).
    apply emission_back. }
  split.
  { assert (E : full_beams x = sort_dedup cbd_key (map enc_beam (map (fun p => be_data (snd p)) (beams_of x)))) by (unfold full_beams; now rewrite map_map). rewrite E.
    pose proof (found cbd_key cbd_key_inj enc_beam (map (fun p => be_data (snd p)) (beams_of x)) lb (be_data b)) as F. cbv zeta in F.
    rewrite (nth_of_error _ _ zero_cbd _ (F ltac:(apply in_map_iff; exists (es_number s, b); auto) ltac:(intros d H; apply in_map_iff in H; destruct H as (q & <- & Q); apply Cb; exists (snd q); split; [now apply beams_of_in|reflexivity]) Lb)).
    apply beam_back. }
  split; [reflexivity|]. split; [destruct (be_status b =? 0); reflexivity|]. split; [destruct (be_technique b); reflexivity|].
  unfold tracks_kept. cbn [be_tracks be_high_density]. destruct (Z.leb_spec (zlen (be_tracks b)) 15) as [T|T]; destruct (Z.ltb_spec 15 (zlen (be_tracks b))); try lia; [|split; reflexivity].
  split; [|reflexivity]. rewrite map_map. rewrite <- (map_id (be_tracks b)) at 2. apply map_ext_in. intros t TI.
  unfold dec_tj, enc_tj. cbn [ctj_index ctj_entity ctj_emitter ctj_beam unopt].
  assert (E : site_pairs x = sort_dedup csa_key (map pair_of (map (fun t => ei_addr (tj_entity t)) (flat_map (fun p => be_tracks (snd p)) (beams_of x))))) by (unfold site_pairs; now rewrite map_map, <- flat_map_map). rewrite E.
  pose proof (found csa_key csa_key_inj pair_of (map (fun t => ei_addr (tj_entity t)) (flat_map (fun p => be_tracks (snd p)) (beams_of x))) lt (ei_addr (tj_entity t))) as F. cbv zeta in F.
  rewrite F.
  - cbn. destruct t as [[[? ?] ?] ? ?]. reflexivity.
  - apply in_map_iff. exists t. split; [reflexivity|]. apply in_flat_map. exists (es_number s, b). auto.
  - intros d HD. apply in_map_iff in HD. destruct HD as (q & <- & Q). apply in_flat_map in Q. destruct Q as (w & W & Q). apply Ct. exists (snd w), q. split; [now apply beams_of_in|auto].
  - exact Lt.
Qed.
Lemma Forall2_map_in {A} (P : A -> A -> Prop) (f : A -> A) l : (forall a, In a l -> P a (f a)) -> Forall2 P l (map f l).
Proof. induction l as [|a l IH]; intros H; cbn; constructor; [apply H; now left|apply IH; intros; apply H; now right]. Qed.
(*@C47 An Electromagnetic Emission in a full update, with at most 256 different parameter sets, beam shapes and target simulations: every system and every beam of it in
 order, with its parameters, shape, status, jamming technique and up to 15 targets each; more targets are replaced by the high density mark. *)
Lemma cdis_emission_content_pf : forall m g oe od p c p' x, translated m g oe od p c p' -> pdu_body p = BElectromagneticEmission x -> full_update (cp_body c) -> countable x ->
  exists y, pdu_body p' = BElectromagneticEmission y /\ emissions_kept x y.
Proof.
  intros m g oe od p c p' x T E FU C. opened T E EN DE. unfold enc_ee in EN. cbv zeta in EN.
  destruct (if partial_ok oe _ now _ then _ else _) as [s|].
  - injection EN as EN _ _. rewrite <- EN in FU. destruct FU as [FU _]. discriminate FU.
  - injection EN as EN _ _. rewrite <- EN in DE. apply dec_body_ee in DE. destruct DE as [st ->]. eexists. split; [reflexivity|].
    unfold emissions_kept, dec_ee. cbv zeta. cbn [fst CEmission_full CEmission_id CEmission_event CEmission_sui CEmission_params CEmission_beams CEmission_sites CEmission_systems
      EE_emitting_entity_id EE_event_id EE_state_update EE_systems negb]. rewrite andb_false_r, eid_back, event_back. do 3 (split; [reflexivity|]).
    rewrite map_map. apply Forall2_map_in. intros s S. unfold dec_esys, enc_esys. cbn [unopt cesy_name cesy_function cesy_number cesy_location cesy_beams option_map].
    unfold esystem_kept. cbn [es_name es_function es_number es_location es_beams]. do 3 (split; [reflexivity|]).
    split; [split; [|split]; apply whole_metres|]. rewrite map_map. apply Forall2_map_in. intros b B. now apply ebeam_back.
Qed.

(** ** What is not kept *)
Definition plain_geo : Geo := MkGeo (fun x y z => (x, y, z)) (fun x y z => (x, y, z)).
Definition works (oe od : Options) (p : Pdu) : bool :=
  match encode plain_geo oe 0 enc_state_new p with
  | Some (c, _, _) => match decode Wrapping plain_geo od dec_state_new c with WOk [] _ => true | _ => false end
  | None => false
  end.
Lemma translated_by oe od p : works oe od p = true -> exists c p', translated Wrapping plain_geo oe od p c p'.
Proof.
  unfold works. destruct (encode plain_geo oe 0 enc_state_new p) as [[[c r] e]|] eqn:E; [|discriminate].
  destruct (decode Wrapping plain_geo od dec_state_new c) as [[|] [[p' r'] d]|] eqn:D; try discriminate. intros _.
  exists c, p', 0, enc_state_new, dec_state_new, r, e, r', d. auto.
Qed.
Definition sent_iff (l3 : option IffLayer3) : Iff :=
  MkIff (MkEntityId (MkSimulationAddress 1 2) 3) (MkEventId (MkSimulationAddress 1 2) 9) (MkVectorF32 1065353216 0 0) (MkSystemId 1 2 3 4) 1 0
    (MkFundOpData 128 7 6 5 10 20 30 40 50 60) None l3 None None.
(*@C47 Of the six parameters of an IFF's operational data none arrives where it was: the decoder puts the sixth in the place of the first and zero in the others. *)
Lemma cdis_iff_parameters_refuted_pf : forall m g oe od p c p' x, translated m g oe od p c p' -> pdu_body p = BIff x ->
  exists y, pdu_body p' = BIff y /\ fo_p1 (Iff_data y) = fo_p6 (Iff_data x) /\
    fo_p2 (Iff_data y) = 0 /\ fo_p3 (Iff_data y) = 0 /\ fo_p4 (Iff_data y) = 0 /\ fo_p5 (Iff_data y) = 0 /\ fo_p6 (Iff_data y) = 0.
Proof.
  intros m g oe od p c p' x T E. opened T E EN DE. unfold enc_iff in EN. cbv zeta in EN.
  destruct (if vec_zero _ then _ else _) as [ant eu].
  injection EN as EN _ _; rewrite <- EN in DE; apply dec_body_iff in DE; destruct DE as [st ->]; eexists; (split; [reflexivity|]).
  unfold dec_iff, dec_fod, enc_fod; cbv zeta; iff_proj. cbn [cfo_p6 fo_p1 fo_p2 fo_p3 fo_p4 fo_p5 fo_p6]. rewrite nonzero_back. repeat split.
Qed.
(*@C47 The navigation source of a mode 5 transponder never arrives. *)
Lemma cdis_iff_navigation_refuted_pf : forall m g oe od p c p' x l t, translated m g oe od p c p' -> pdu_body p = BIff x -> Iff_layer_3 x = Some l -> l3_basic l = M5Transponder t ->
  exists y l' t', pdu_body p' = BIff y /\ Iff_layer_3 y = Some l' /\ l3_basic l' = M5Transponder t' /\ m5t_nav t' = 0.
Proof.
  intros m g oe od p c p' x l t T E L B. opened T E EN DE. unfold enc_iff in EN. cbv zeta in EN.
  destruct (if vec_zero _ then _ else _) as [ant eu].
  injection EN as EN _ _; rewrite <- EN in DE; apply dec_body_iff in DE; destruct DE as [st ->]. do 3 eexists. split; [reflexivity|].
  unfold dec_iff; cbv zeta; iff_proj. rewrite L. cbn [option_map]. split; [reflexivity|]. unfold dec_l3, enc_l3. cbv zeta. cbn [cl3_basic l3_basic]. rewrite B. cbn [enc_m5 dec_m5]. split; reflexivity.
Qed.
(*@C47 An IFF PDU in a full update: also the system identification. *)
Lemma cdis_iff_system_pf : forall m g oe od p c p' x, translated m g oe od p c p' -> pdu_body p = BIff x -> full_update (cp_body c) ->
  exists y, pdu_body p' = BIff y /\ Iff_system_id y = Iff_system_id x.
Proof.
  intros m g oe od p c p' x T E FU. opened T E EN DE. unfold enc_iff in EN. cbv zeta in EN.
  destruct (if vec_zero _ then _ else _) as [ant eu].
  injection EN as EN _ _. rewrite <- EN in DE, FU. apply dec_body_iff in DE; destruct DE as [st ->]; eexists; (split; [reflexivity|]).
  unfold dec_iff; cbv zeta; iff_proj. cbn [full_update CIff_system] in FU. destruct (partial_ok _ _ _ _); [destruct (FU eq_refl)|]. reflexivity.
Qed.
(*@C47 With the static dead reckoning algorithm 0 ("other") the velocity and the other parameters are not sent: they arrive as zero. *)
Lemma cdis_other_algorithm_refuted_pf : forall m g oe od p c p' x, translated m g oe od p c p' -> pdu_body p = BEntityState x -> dr_algorithm (EntityState_dr x) = 0 ->
  exists y, pdu_body p' = BEntityState y /\ EntityState_velocity y = MkVectorF32 0 0 0 /\ dr_other (EntityState_dr y) = DrNone (repeat 0 15).
Proof.
  intros m g oe od p c p' x T E A. opened T E EN DE. unfold enc_es in EN. cbv zeta in EN. rewrite A in EN.
  destruct (partial_ok oe _ now _); [|destruct (enc_world g _) as [loc units]; destruct (cmarking_new _) as [mk|]; [|discriminate]];
  injection EN as EN _ _; rewrite <- EN in DE; apply dec_body_es in DE; destruct DE as [st ->]; eexists; (split; [reflexivity|]); split; reflexivity.
Qed.
(*@C47 The capabilities are not sent by an encoder that is not set to completeness: they arrive as none. *)
Lemma cdis_capabilities_refuted_pf : forall m g oe od p c p' x, translated m g oe od p c p' -> pdu_body p = BEntityState x -> o_complete oe = false ->
  exists y, pdu_body p' = BEntityState y /\ ec_word (EntityState_capabilities y) = 0.
Proof.
  intros m g oe od p c p' x T E A. opened T E EN DE. unfold enc_es in EN. cbv zeta in EN.
  assert (Z : enc_capabilities oe (EntityState_capabilities x) = None) by (unfold enc_capabilities; now rewrite A). rewrite Z in EN.
  destruct (partial_ok oe _ now _); [|destruct (enc_world g _) as [loc units]; destruct (cmarking_new _) as [mk|]; [|discriminate]];
  injection EN as EN _ _; rewrite <- EN in DE; apply dec_body_es in DE; destruct DE as [st ->]; eexists; (split; [reflexivity|]);
  unfold dec_es; cbv zeta; es_proj; cbn [fst EntityState_capabilities]; unfold capabilities_from_bytes; destruct (_ =? 0); reflexivity.
Qed.

(** ** Examples *)
Definition one_vec : VectorF32 := MkVectorF32 1065353216 1073741824 0.
Definition one_loc : Location := MkLocation 4607182418800017408 4607182418800017408 0.
Definition sent_ee : ElectromagneticEmission :=
  MkEE (MkEntityId (MkSimulationAddress 1 2) 3) (MkEventId (MkSimulationAddress 1 2) 9) 0
    [MkEmitterSystem 5 6 1 one_vec
      [MkBeam 1 2 (MkFPD 1065353216 1073741824 1065353216 1065353216 1065353216) (MkBeamData 1065353216 0 0 0 0) 1 0 0 (MkJamming 1 2 3 4)
         [MkTrackJam (MkEntityId (MkSimulationAddress 7 8) 9) 1 2];
       MkBeam 2 2 (MkFPD 1073741824 0 0 0 0) (MkBeamData 0 0 0 0 0) 1 0 1 (MkJamming 0 0 0 0) []]].
Definition sent_munition : DescriptorRecord := DMunition (MkEntityType 2 2 0 0 0 0 0) (MkMunitionDescriptor 1000 0 1 0).
Definition sent_bodies : list PduBody :=
  [BEntityState (ex_dis_es 3 1 [86; 49]);
   BElectromagneticEmission sent_ee; BIff (sent_iff None); BIff (sent_iff (Some (MkIffLayer3 (MkLayerHeader 3 0 0) (MkSimulationAddress 1 2) (M5Transponder (MkM5T 1 2 3 4 5 6 7 8)) [])));
   BFire (MkFire zero_id zero_id zero_id zero_event 4 one_loc sent_munition one_vec 1065353216);
   BDetonation (MkDetonation zero_id zero_id zero_id zero_event one_vec one_loc sent_munition one_vec 5 []);
   BCollision (MkCollision zero_id zero_id zero_event 1 one_vec 1065353216 one_vec);
   BDesignator (MkDesignator zero_id 4 zero_id 5 1065353216 1065353216 one_vec one_loc 4 one_vec);
   BTransmitter (MkTransmitter zero_id 1 (MkEntityType 7 0 0 0 0 0 0) 2 3 one_loc one_vec 1 243000000 1065353216 1065353216 (MkModulationType (MkSpread true false false) (MMDetail 2 3) 4) 1
     (MkCryptoKeyId 77 true) (Some [1; 2; 3; 4]) (Some (MkBAP zero_orientation 1065353216 0 0 0 0 0)) []);
   BReceiver (MkReceiver zero_id 1 2 1065353216 zero_id 3);
   BSignal (MkSignal zero_id 1 (EsEncodedAudio 0 1) 0 8000 4 [1; 2; 3; 4])].
(*@ex*)
Example translated_example : Forall (fun b => exists c p', translated Wrapping plain_geo new_full_update new_partial_update (ex_dis b) c p') sent_bodies.
Proof. unfold sent_bodies. repeat (apply Forall_cons; [apply translated_by; vm_compute; reflexivity|]). apply Forall_nil. Qed.
(*@ex*)
Example translated_full_example : exists c p', translated Wrapping plain_geo new_full_update new_partial_update (ex_dis (BElectromagneticEmission sent_ee)) c p' /\ full_update (cp_body c) /\ countable sent_ee.
Proof.
  destruct (encode plain_geo new_full_update 0 enc_state_new (ex_dis (BElectromagneticEmission sent_ee))) as [[[c r] e]|] eqn:E; [|exfalso; vm_compute in E; discriminate E].
  assert (F : full_update (cp_body c)). { unfold encode in E. cbn [enc_body pdu_body ex_dis] in E. injection E as <- _ _. split; [reflexivity|]. constructor; [apply enc_esys_full|constructor]. }
  destruct (decode Wrapping plain_geo new_partial_update dec_state_new c) as [[|] [[p' r'] d]|] eqn:D.
  - exists c, p'. split; [exists 0, enc_state_new, dec_state_new, r, e, r', d; auto|]. split; [exact F|].
    assert (B : forall b, beam_in sent_ee b -> b = nth 0 (es_beams (nth 0 (EE_systems sent_ee) (MkEmitterSystem 0 0 0 zero_vec []))) (MkBeam 0 0 zero_fpd zero_bd 0 0 0 (MkJamming 0 0 0 0) []) \/
      b = nth 1 (es_beams (nth 0 (EE_systems sent_ee) (MkEmitterSystem 0 0 0 zero_vec []))) (MkBeam 0 0 zero_fpd zero_bd 0 0 0 (MkJamming 0 0 0 0) [])).
    { intros b (s & [<-|[]] & [<-|[<-|[]]]); auto. }
    split; [|split].
    + eexists [_; _]. split; [vm_compute; discriminate|]. intros a (b & H & ->). destruct (B b H) as [-> | ->]; [left; reflexivity|right; left; reflexivity].
    + eexists [_; _]. split; [vm_compute; discriminate|]. intros a (b & H & ->). destruct (B b H) as [-> | ->]; [left; reflexivity|right; left; reflexivity].
    + exists [MkSimulationAddress 7 8]. split; [vm_compute; discriminate|]. intros a (b & t & H & T & ->). destruct (B b H) as [-> | ->]; [destruct T as [<-|[]]; left; reflexivity|destruct T].
  - exfalso. assert (Q : works new_full_update new_partial_update (ex_dis (BElectromagneticEmission sent_ee)) = true) by (vm_compute; reflexivity). unfold works in Q. rewrite E, D in Q. discriminate Q.
  - exfalso. assert (Q : works new_full_update new_partial_update (ex_dis (BElectromagneticEmission sent_ee)) = true) by (vm_compute; reflexivity). unfold works in Q. rewrite E, D in Q. discriminate Q.
Qed.

(** * Across the C-DIS wire: what the encoder makes of a PDU C-DIS has room for fits the wire (lemmas) *)
From Coq Require Import ZArith List Lia Bool SpecFloat Reals Lra Psatz.
From Flocq Require Import Core BinarySingleNaN.
From Verif Require Import Base CdisBase DisCommon DisHeader DisLists DisSimman DisLogistics DisWarfare DisEntity DisEmission DisRadio DisIff DisPdu DisPacket
  CdisRecords CdisBodies1 CdisBodies2 CdisIff CdisPdu CdisCodec1 CdisCodec2 CdisCodec3 SpecFloatValue SpecContent SpecBody SpecCross SpecCdisPdu SpecCodec SpecGateway
  FloatReal FloatBits FloatBits64 Utf8 L_Codec L_CodecNum L_CodecPrec L_CodecContent L_CodecSim L_Gateway.
Import ListNotations. Open Scope Z_scope.

(** ** Places *)
Lemma sent_coordinate f c : ok53 f -> ok53 c -> (683565274 <= val c <= 683565276)%R -> (-4 <= val f <= 4)%R ->
  let v := f64_as_f32 (dfmul f c) in ok24 v /\ (Rabs (val v - val f * 683565248) <= Rabs (val f) * 70 + 4 * tiny)%R.
Proof.
  intros F C CV B. cbv zeta. assert (A : (Rabs (val f) <= 4)%R) by (apply Rabs_le; lra).
  assert (PC : (Rabs (val f * val c) = Rabs (val f) * val c)%R) by (rewrite Rabs_mult, (Rabs_right (val c)) by lra; reflexivity).
  assert (PF : (0 <= Rabs (val f))%R) by apply Rabs_pos.
  destruct (mul53_fine f c F C) as [P N]; [rewrite PC; unfold huge; nra|]. rewrite PC in N. set (w := dfmul f c) in *.
  assert (W : (Rabs (val w) <= 4000000000)%R).
  { replace (val w) with ((val w - val f * val c) + val f * val c)%R by ring. eapply Rle_trans; [apply Rabs_triang|]. rewrite PC. unfold tiny in N. nra. }
  destruct (narrow w P) as [Q M]; [unfold huge; lra|]. set (v := f64_as_f32 w) in *. split; [exact Q|].
  assert (E1 : (Rabs (val w - val f * val c) <= 0.001 * Rabs (val f) + tiny)%R) by nra.
  assert (E2 : (Rabs (val w) <= Rabs (val f) * 683565277 + tiny)%R).
  { replace (val w) with ((val w - val f * val c) + val f * val c)%R by ring. eapply Rle_trans; [apply Rabs_triang|]. rewrite PC. nra. }
  assert (E3 : (Rabs (val v - val w) <= Rabs (val f) * 41 + 2 * tiny)%R) by (unfold ulp24 in M; unfold tiny in *; lra).
  assert (E4 : (Rabs (val f * val c - val f * 683565248) <= Rabs (val f) * 28)%R).
  { rewrite <- Rmult_minus_distr_l, Rabs_mult. apply Rmult_le_compat_l; [exact PF|]. apply Rabs_le. lra. }
  replace (val v - val f * 683565248)%R with ((val v - val w) + (val w - val f * val c) + (val f * val c - val f * 683565248))%R by ring.
  eapply Rle_trans; [apply Rabs_triang|]. eapply Rle_trans; [apply Rplus_le_compat_r, Rabs_triang|]. unfold tiny in *. lra.
Qed.
Lemma lat_scale_ok : ok24 lat_scale /\ (Rabs (/ val lat_scale - lat_shrink) <= 0.00000001)%R /\ (val lat_scale > 8)%R.
Proof.
  assert (K : ok24 lat_scale /\ (17.1887337 <= val lat_scale <= 17.1887342)%R) by scale53. destruct K as [K V]. split; [exact K|]. split; [|lra].
  assert (A : (/ 17.1887342 <= / val lat_scale <= / 17.1887337)%R) by (split; apply Rinv_le_contravar; lra). unfold lat_shrink. apply Rabs_le. lra.
Qed.
Lemma lon_scale_ok : ok24 lon_scale /\ (Rabs (/ val lon_scale - lon_shrink) <= 0.00000001)%R /\ (val lon_scale > 8)%R.
Proof.
  assert (K : ok24 lon_scale /\ (8.9126766 <= val lon_scale <= 8.9126771)%R) by scale53. destruct K as [K V]. split; [exact K|]. split; [|lra].
  assert (A : (/ 8.9126771 <= / val lon_scale <= / 8.9126766)%R) by (split; apply Rinv_le_contravar; lra). unfold lon_shrink. apply Rabs_le. lra.
Qed.
Lemma cast_back v : ok24 v -> (Rabs (val v) <= 2147484000)%R -> let z := sf_cast (- 2 ^ 31) (2 ^ 31 - 1) v in
  ok24 (sf_of_int z) /\ (Rabs (val (sf_of_int z) - val v) <= 1 + 0.00000026 * Rabs (val v) + tiny)%R /\ (Rabs (IZR z) <= Rabs (val v))%R.
Proof.
  intros O B. cbv zeta. rewrite (cast_fin 24 128) by (try exact O; lia). pose proof (trunc_near (val v)) as T.
  set (z := Z.max (- 2 ^ 31) (Z.min (2 ^ 31 - 1) (Ztrunc (val v)))).
  assert (TA : (Rabs (IZR (Ztrunc (val v))) <= Rabs (val v))%R).
  { rewrite <- abs_IZR, <- Ztrunc_abs. rewrite Ztrunc_floor by apply Rabs_pos. apply Zfloor_lb. }
  assert (ZA : (Rabs (IZR z) <= Rabs (val v))%R).
  { eapply Rle_trans; [|exact TA]. rewrite <- !abs_IZR. apply IZR_le. unfold z. lia. }
  destruct (int_near z) as [I N]; [unfold huge; lra|]. split; [exact I|]. split; [|exact ZA].
  assert (E : (Rabs (IZR z - val v) <= 1 + 0.0000002 * Rabs (val v))%R).
  { apply Rabs_le_inv in B. apply Rabs_def2 in T.
    destruct (Z.eq_dec z (Ztrunc (val v))) as [K|K].
    - rewrite K. pose proof (Rabs_pos (val v)). apply Rabs_le. lra.
    - destruct (Z_lt_le_dec (Ztrunc (val v)) 0) as [S|S].
      + assert (ZZ : z = - 2 ^ 31) by (unfold z in *; lia). assert (Ztrunc (val v) < - 2 ^ 31) by (unfold z in *; lia). rewrite ZZ.
        assert (IZR (Ztrunc (val v)) < IZR (- 2 ^ 31))%R by (apply IZR_lt; lia). change (- 2 ^ 31) with (-2147483648) in *.
        assert (val v <= -2147483647)%R by lra. rewrite (Rabs_left (val v)) by lra. apply Rabs_le. lra.
      + assert (ZZ : z = 2 ^ 31 - 1) by (unfold z in *; lia). assert (2 ^ 31 - 1 < Ztrunc (val v)) by (unfold z in *; lia). rewrite ZZ.
        assert (IZR (2 ^ 31 - 1) < IZR (Ztrunc (val v)))%R by (apply IZR_lt; lia). change (2 ^ 31 - 1) with 2147483647 in *.
        assert (2147483646 <= val v)%R by lra. rewrite (Rabs_right (val v)) by lra. apply Rabs_le. lra. }
  replace (val (sf_of_int z) - val v)%R with ((val (sf_of_int z) - IZR z) + (IZR z - val v))%R by ring.
  eapply Rle_trans; [apply Rabs_triang|]. unfold ulp24 in N. pose proof (Rabs_pos (val v)). lra.
Qed.
Lemma shrunk f c s d k : ok53 f -> ok53 c -> ok24 s -> ok24 d -> (683565274 <= val c <= 683565276)%R -> val d = 683565248%R -> (-3.1415927 <= val f <= 3.1415927)%R ->
  (Rabs (/ val s - k) <= 0.00000001)%R -> (val s > 8)%R -> (0 <= k <= 0.12)%R ->
  let z := f32_as_i32 (bits_of_sf (f64_as_f32 (dfmul f c))) in
  let r := sfdiv (sf_of_bits (bits_of_sf (sfdiv (sf_of_int z) s))) d in
  ok24 r /\ (Rabs (val r - val f * k) <= 0.0000001 * Rabs (val f) + 0.000000001)%R /\ (Rabs (IZR z) <= Rabs (val f) * 683565318 + 1)%R.
Proof.
  intros F C S D CV DV B KS SP KB. cbv zeta.
  destruct (sent_coordinate f c F C CV ltac:(lra)) as [V E]. cbv zeta in V, E. unfold f32_as_i32. rewrite (proj1 (bits_round_trip _ V)). set (v := f64_as_f32 (dfmul f c)) in *.
  assert (PF : (0 <= Rabs (val f))%R) by apply Rabs_pos. assert (A : (Rabs (val f) <= 3.1415927)%R) by (apply Rabs_le; lra).
  assert (AV : (Rabs (val v) <= Rabs (val f) * 683565318 + 4 * tiny)%R).
  { replace (val v) with ((val v - val f * 683565248) + val f * 683565248)%R by ring. eapply Rle_trans; [apply Rabs_triang|]. rewrite (Rabs_mult _ 683565248), (Rabs_right 683565248) by lra. lra. }
  destruct (cast_back v V) as (O & N & ZB); [unfold tiny in AV; lra|]. set (z := sf_cast _ _ v) in *. set (B' := val (sf_of_int z)) in *.
  assert (E1 : (Rabs (B' - val f * 683565248) <= 248 * Rabs (val f) + 1.01)%R).
  { replace (B' - val f * 683565248)%R with ((B' - val v) + (val v - val f * 683565248))%R by ring. eapply Rle_trans; [apply Rabs_triang|]. unfold tiny in *. lra. }
  assert (BB : (Rabs B' <= 683565500 * Rabs (val f) + 1.01)%R).
  { replace B' with ((B' - val f * 683565248) + val f * 683565248)%R by ring. eapply Rle_trans; [apply Rabs_triang|]. rewrite (Rabs_mult _ 683565248), (Rabs_right 683565248) by lra. lra. }
  set (t := (/ val s)%R) in *. assert (TB : (0 <= t <= 0.121)%R) by (apply Rabs_le_inv in KS; split; [unfold t; left; apply Rinv_0_lt_compat; lra|lra]).
  assert (BT : (Rabs (B' / val s) = Rabs B' * t)%R) by (unfold Rdiv; rewrite Rabs_mult; fold t; rewrite (Rabs_right t) by lra; reflexivity).
  assert (BTB : (Rabs B' * t <= 82711426 * Rabs (val f) + 0.13)%R) by nra.
  destruct (div_near (sf_of_int z) s O S) as [Q M]; [lra|fold B'; rewrite BT; unfold huge; lra|]. fold B' in M. rewrite BT in M.
  rewrite (proj1 (bits_round_trip _ Q)). set (q := sfdiv (sf_of_int z) s) in *.
  assert (E2 : (Rabs (val q - val f * 683565248 * t) <= 36 * Rabs (val f) + 0.2)%R).
  { replace (val q - val f * 683565248 * t)%R with ((val q - B' / val s) + (B' - val f * 683565248) * t)%R by (unfold t; field; lra).
    eapply Rle_trans; [apply Rabs_triang|]. rewrite (Rabs_mult _ t), (Rabs_right t) by lra.
    assert (Rabs (B' - val f * 683565248) * t <= (248 * Rabs (val f) + 1.01) * 0.121)%R by (apply Rmult_le_compat; try lra; apply Rabs_pos). unfold ulp24, tiny in *. lra. }
  assert (E3 : (Rabs (val q / 683565248 - val f * t) <= 0.00000006 * Rabs (val f) + 0.0000000003)%R).
  { replace (val q / 683565248 - val f * t)%R with ((val q - val f * 683565248 * t) * / 683565248)%R by field. rewrite Rabs_mult, (Rabs_right (/ 683565248)) by lra. lra. }
  assert (FT : (Rabs (val f * t) <= 0.121 * Rabs (val f))%R) by (rewrite Rabs_mult, (Rabs_right t) by lra; nra).
  assert (QB : (Rabs (val q / 683565248) <= 0.122 * Rabs (val f) + 0.0000000003)%R).
  { replace (val q / 683565248)%R with ((val q / 683565248 - val f * t) + val f * t)%R by ring. eapply Rle_trans; [apply Rabs_triang|]. lra. }
  destruct (div_near q d Q D) as [R G]; [lra|rewrite DV; unfold huge; lra|]. rewrite DV in G. split; [exact R|]. split; [|unfold tiny in *; lra].
  assert (E4 : (Rabs (val f * t - val f * k) <= 0.00000001 * Rabs (val f))%R) by (rewrite <- Rmult_minus_distr_l, Rabs_mult; nra).
  replace (val (sfdiv q d) - val f * k)%R with ((val (sfdiv q d) - val q / 683565248) + (val q / 683565248 - val f * t) + (val f * t - val f * k))%R by ring.
  eapply Rle_trans; [apply Rabs_triang|]. eapply Rle_trans; [apply Rplus_le_compat_r, Rabs_triang|]. unfold ulp24, tiny in *. lra.
Qed.
Lemma altitude_fits f : ok53 f -> (-10485 <= val f <= 83886 \/ 83887 <= val f <= 83886000)%R -> let (a, u) := enc_altitude f in -1048576 <= a < 8388608 /\ (u = 0 \/ u = 1).
Proof.
  intros F B. unfold enc_altitude. cbv zeta.
  destruct (int_exact53 100 ltac:(lia)) as [H1 V1]. destruct (int_exact53 8388608 ltac:(lia)) as [H2 V2]. destruct (int_exact53 10 ltac:(lia)) as [H3 V3].
  assert (A : (Rabs (val f) <= 83886000)%R) by (apply Rabs_le; lra).
  destruct (mul53_fine f (df_of_int 100) F H1) as [C N]; [rewrite V1, Rabs_mult, (Rabs_right 100) by lra; unfold huge; lra|]. rewrite V1, Rabs_mult, (Rabs_right 100) in N by lra.
  set (cm := dfmul f (df_of_int 100)) in *. rewrite (leb_R 53 1024 cm (df_of_int 8388608) C H2), V2.
  assert (NC : (Rabs (val cm - val f * 100) <= 0.0100001)%R) by (unfold tiny in N; lra). apply Rabs_le_inv in NC.
  destruct (Rle_bool_spec (val cm) 8388608) as [S|S].
  - assert (FB : (-10485 <= val f <= 83886)%R) by lra.
    rewrite (cast_fin 53 1024) by (try exact C; lia). pose proof (trunc_near (val cm)) as T. apply Rabs_def2 in T.
    assert (-1048576 < Ztrunc (val cm)) by (apply lt_IZR; lra). assert (Ztrunc (val cm) < 8388608) by (apply lt_IZR; lra).
    split; [|auto]. lia.
  - assert (FB : (83886.07 <= val f)%R) by lra.
    destruct (div53 f (df_of_int 10) F H3) as [D Q]; [lra|rewrite V3; unfold huge; apply Rabs_le; lra|]. rewrite V3 in Q.
    assert (QB : (Rabs (val (dfdiv f (df_of_int 10)) - val f / 10) <= 1)%R).
    { eapply Rle_trans; [exact Q|]. rewrite Rabs_right by lra. unfold ulp24, tiny. lra. }
    apply Rabs_le_inv in QB. set (q := dfdiv f (df_of_int 10)) in *.
    rewrite (cast_fin 53 1024) by (try exact D; lia). pose proof (trunc_near (val q)) as T. apply Rabs_def2 in T.
    assert (0 < Ztrunc (val q)) by (apply lt_IZR; lra). assert (Ztrunc (val q) < 8388608) by (apply lt_IZR; lra).
    split; [|auto]. lia.
Qed.
Lemma bits_u32 f : ok24 f -> u32 (bits_of_sf f).
Proof. intros H. destruct (bits_of_fin f H) as [[A _] _]. unfold u32. lia. Qed.
(** a place within C-DIS's ranges fits the wire, and arrives shrunk *)
Lemma place_crosses g l : narrow_place g l ->
  fits_CWorldCoordinates (fst (enc_world g l)) /\ ub 1 (snd (enc_world g l)) /\ place_shrunk g l (dec_world g (img_cwc (fst (enc_world g l))) (snd (enc_world g l))).
Proof.
  intros (NC & X1 & X2 & X3 & NP). destruct (to_lla g (loc_x l) (loc_y l) (loc_z l)) as [[lat lon] alt] eqn:LLA.
  destruct (NP lat lon alt eq_refl) as (F1 & F2 & F3 & B1 & B2 & B3).
  destruct (of_bits53_fin lat F1) as [O1 V1]. destruct (of_bits53_fin lon F2) as [O2 V2]. destruct (of_bits53_fin alt F3) as [O3 V3].
  rewrite <- V1 in B1. rewrite <- V2 in B2. rewrite <- V3 in B3.
  unfold enc_world. rewrite LLA.
  destruct (df_is_zero (loc_x l) && df_is_zero (loc_y l) && df_is_zero (loc_z l)) eqn:Z.
  { exfalso. apply NC. apply andb_true_iff in Z. destruct Z as [Z Z3]. apply andb_true_iff in Z. destruct Z as [Z1 Z2]. split; [|split]; now apply zero_value. }
  fold lat53. fold lon53.
  change (dfdiv (dfsub (df_of_int (2 ^ 30)) (df_of_int 1)) df_frac_pi_2) with lat53.
  pose proof (altitude_hop _ O3 ltac:(lra)) as A. pose proof (altitude_fits _ O3 B3) as AF. unfold enc_altitude in A, AF. cbv zeta in A, AF |- *.
  destruct (if SFleb (dfmul (df_of_bits alt) (df_of_int 100)) (df_of_int 8388608) then (dfmul (df_of_bits alt) (df_of_int 100), 0) else (dfdiv (df_of_bits alt) (df_of_int 10), 1)) as [a u].
  destruct A as (A1 & A2 & A3). destruct AF as [AB AU]. cbn [fst snd].
  destruct lat53_ok as [L1 L1v], lon53_ok as [L2 L2v], lat24_ok as [L3 L3v], lon24_ok as [L4 L4v]. destruct lat_scale_ok as (S1 & S2 & S3), lon_scale_ok as (T1 & T2 & T3).
  destruct (shrunk (df_of_bits lat) lat53 lat_scale lat24 lat_shrink O1 L1 S1 L3 L1v L3v ltac:(lra) S2 S3 ltac:(unfold lat_shrink; lra)) as (R1 & N1 & ZB).
  destruct (shrunk (df_of_bits lon) lon53 lon_scale lon24 lon_shrink O2 L2 T1 L4 L2v L4v B2 T2 T3 ltac:(unfold lon_shrink; lra)) as (R2 & N2 & _).
  cbv zeta in R1, N1, R2, N2, ZB.
  split.
  { unfold fits_CWorldCoordinates. cbn [cwc_lat cwc_lon cwc_alt]. destruct (sent_coordinate _ _ O1 L1 L1v ltac:(lra)) as [K1 _]. destruct (sent_coordinate _ _ O2 L2 L2v ltac:(lra)) as [K2 _].
    split; [now apply bits_u32|]. split; [now apply bits_u32|]. split; [unfold sb; change (2 ^ (24 - 1)) with 8388608; lia|].
    assert (AL : (Rabs (val (df_of_bits lat)) <= 1.5707)%R) by (apply Rabs_le; lra).
    assert (ZZ : (Rabs (IZR (f32_as_i32 (bits_of_sf (f64_as_f32 (dfmul (df_of_bits lat) lat53))))) < 1073741824)%R) by lra.
    apply Rabs_def2 in ZZ. change (2 ^ 30) with 1073741824. split; apply lt_IZR; [change (- (1073741824)) with (-1073741824)|]; lra. }
  split; [unfold ub; change (2 ^ 1) with 2; destruct AU as [->| ->]; lia|].
  intros lat0 lon0 alt0 E. rewrite LLA in E. injection E as <- <- <-.
  unfold dec_world, img_cwc, lat_of_int, lon_of_int. cbn [cwc_lat cwc_lon cwc_alt].
  assert (I24 : img24 (sf_cast (- 2 ^ 31) (2 ^ 31 - 1) a) = sf_cast (- 2 ^ 31) (2 ^ 31 - 1) a) by (unfold img24; destruct (Z.ltb_spec (sf_cast (- 2 ^ 31) (2 ^ 31 - 1) a) (-1048576)); [lia|reflexivity]).
  rewrite I24. fold lat24. fold lon24. rewrite <- V1, <- V2, <- V3.
  set (r1 := sfdiv _ lat24) in *. set (r2 := sfdiv _ lon24) in *.
  change (if u =? 0 then sfdiv (fz (sf_cast (- 2 ^ 31) (2 ^ 31 - 1) a)) (fz 100) else sfmul (fz (sf_cast (- 2 ^ 31) (2 ^ 31 - 1) a)) (fz 10)) with (dec_altitude (sf_cast (- 2 ^ 31) (2 ^ 31 - 1) a) u).
  set (r3 := dec_altitude _ u) in *.
  assert (SM : forall r f k, (-4 <= val f <= 4)%R -> (0 <= k <= 1)%R -> (Rabs (val r - val f * k) <= 0.0000001 * Rabs (val f) + 0.000000001)%R -> (Rabs (val r) <= huge)%R).
  { intros r f k Hf Hk Hr. assert (Rabs (val f) <= 4)%R by (apply Rabs_le; lra). assert (Rabs (val f * k) <= 4)%R by (rewrite Rabs_mult, (Rabs_right k) by lra; pose proof (Rabs_pos (val f)); nra).
    replace (val r) with ((val r - val f * k) + val f * k)%R by ring. eapply Rle_trans; [apply Rabs_triang|]. unfold huge. lra. }
  destruct (widen r1 R1 (SM r1 (df_of_bits lat) lat_shrink ltac:(lra) ltac:(unfold lat_shrink; lra) N1)) as [W1 E1].
  destruct (widen r2 R2 (SM r2 (df_of_bits lon) lon_shrink ltac:(lra) ltac:(unfold lon_shrink; lra) N2)) as [W2 E2]. destruct (widen r3 A1) as [W3 E3]; [unfold huge; lra|].
  destruct (bits53_of_fin _ W1) as [D1 U1]. destruct (bits53_of_fin _ W2) as [D2 U2]. destruct (bits53_of_fin _ W3) as [D3 U3].
  exists (bits_of_df (f32_as_f64 r1)), (bits_of_df (f32_as_f64 r2)), (bits_of_df (f32_as_f64 r3)).
  split; [destruct (to_ecef g _ _ _) as [[x y] z]; reflexivity|]. split; [exact D1|]. split; [exact D2|]. split; [exact D3|].
  unfold within. rewrite U1, U2, U3, E1, E2, E3. repeat split; assumption.
Qed.

(** ** What the encoder makes of a record within the ranges fits the wire *)
Lemma eid_fits e : wf_EntityId e -> fits_CEntityId (enc_eid e).
Proof. destruct e as [[a b] c]. unfold wf_EntityId, wf_SimulationAddress, fits_CEntityId, enc_eid, u16, ub. cbn. change (2 ^ 16) with 65536. tauto. Qed.
Lemma event_fits e : wf_EventId e -> fits_CEntityId (enc_event e).
Proof. destruct e as [[a b] c]. unfold wf_EventId, wf_SimulationAddress, fits_CEntityId, enc_event, u16, ub. cbn. change (2 ^ 16) with 65536. tauto. Qed.
Lemma type_fits t : wf_EntityType t -> narrow_type t -> fits_CEntityType (enc_etype t).
Proof.
  unfold wf_EntityType, narrow_type, fits_CEntityType, enc_etype, u8, u16, ub. cbn [CEntityType_kind CEntityType_domain CEntityType_country CEntityType_category CEntityType_subcategory CEntityType_specific CEntityType_extra].
  change (2 ^ 4) with 16. change (2 ^ 9) with 512. change (2 ^ 8) with 256. lia.
Qed.
Lemma velocity_fits v : fits_CLinearVelocity (enc_velocity v).
Proof.
  unfold fits_CLinearVelocity, enc_velocity, sb. cbn [CLinearVelocity_x CLinearVelocity_y CLinearVelocity_z]. unfold to_decimeters, f32_as_i16.
  repeat match goal with |- context [sf_cast (-32768) 32767 ?f] => let H := fresh in pose proof (cast_range (-32768) 32767 f ltac:(lia)) as H; generalize dependent (sf_cast (-32768) 32767 f); intros end; lia.
Qed.
Lemma acceleration_fits v : narrow_acceleration v -> fits_CLinearAcceleration (enc_acceleration v).
Proof.
  intros [(F1 & F2 & F3) H]. assert (K : forall b, f32_finite b -> (-819 <= f32_value b <= 819)%R -> -8192 <= to_decimeters b < 8192).
  { intros b F R. destruct ten_ok as [T TV]. pose proof (sent_near b (fz 10) 8190 F T ltac:(lra)) as S. unfold to_decimeters, f32_as_i16.
      assert (- (8190 + 1) <= sf_cast (-32768) 32767 (sfmul (sf_of_bits b) (fz 10)) <= 8190 + 1); [|lia]. apply S; [|lia].
      rewrite TV. assert (Rabs (f32_value b) <= 819)%R by (apply Rabs_le; lra). lra. }
  pose proof (K _ F1 (H (v_1 v) ltac:(cbn; auto))). pose proof (K _ F2 (H (v_2 v) ltac:(cbn; auto))). pose proof (K _ F3 (H (v_3 v) ltac:(cbn; auto))).
  unfold fits_CLinearAcceleration, enc_acceleration, sb. cbn [CLinearAcceleration_x CLinearAcceleration_y CLinearAcceleration_z]. lia.
Qed.
Lemma orientation_fits o : narrow_orientation o -> fits_COrientation (enc_orientation o).
Proof.
  intros (F1 & F2 & F3). pose proof (proj2 (angle _) F1). pose proof (proj2 (angle _) F2). pose proof (proj2 (angle _) F3).
  unfold fits_COrientation, enc_orientation, sb. cbn [COrientation_psi COrientation_theta COrientation_phi]. lia.
Qed.
Lemma coordinates_fit v : fits_CEntityCoordinateVector (fst (enc_ecv v)) /\ ub 1 (snd (enc_ecv v)).
Proof.
  split; [|unfold enc_ecv, ub; destruct (_ || _)%bool; cbn; lia].
  unfold fits_CEntityCoordinateVector, enc_ecv, sb. destruct (_ || _)%bool; cbn [fst CEntityCoordinateVector_x CEntityCoordinateVector_y CEntityCoordinateVector_z];
  unfold enc_component; repeat match goal with |- context [f32_to_i16 ?f ?p] => let H := fresh in pose proof (i16_cast_range f p) as H; generalize dependent (f32_to_i16 f p); intros end; lia.
Qed.
Lemma turning_fits v : narrow_turning v -> fits_CAngularVelocity (enc_angular v).
Proof.
  intros [(F1 & F2 & F3) H]. assert (K : forall b, f32_finite b -> (-50 <= f32_value b <= 50)%R -> -2048 <= enc_rate b < 2048).
  { intros b F R. destruct degrees_ok as [D DV], angular_ok as [A AV]. destruct (of_bits_fin b F) as [O V].
    assert (Rabs (f32_value b) <= 50)%R by (apply Rabs_le; lra). assert (M : (Rabs (SF2R radix2 (sf_of_bits b) * SF2R radix2 degrees_per_radian) <= 2865)%R).
    { rewrite V, Rabs_mult, (Rabs_right (SF2R radix2 degrees_per_radian)) by lra. assert (0 <= Rabs (f32_value b))%R by apply Rabs_pos. nra. }
    destruct (mul_near (sf_of_bits b) degrees_per_radian O D) as [PO PN]; [unfold huge; lra|]. unfold enc_rate, f32_as_i16. set (p := sfmul (sf_of_bits b) degrees_per_radian) in *.
    assert (PA : (Rabs (SF2R radix2 p) <= 2866)%R).
    { assert (W : (Rabs (SF2R radix2 p - SF2R radix2 (sf_of_bits b) * SF2R radix2 degrees_per_radian) <= 1)%R) by (unfold ulp24, tiny in PN; lra). apply Rabs_le_inv in W. apply Rabs_le_inv in M. apply Rabs_le. lra. }
    assert (- (1826 + 1) <= sf_cast (-32768) 32767 (sfmul p angular_scale) <= 1826 + 1); [|lia].
    apply (sent_near_gen sf_cast 1); auto using cast_converts; try lra; try lia. assert (0 <= Rabs (SF2R radix2 p))%R by apply Rabs_pos. nra. }
  pose proof (K _ F1 (H (v_1 v) ltac:(cbn; auto))). pose proof (K _ F2 (H (v_2 v) ltac:(cbn; auto))). pose proof (K _ F3 (H (v_3 v) ltac:(cbn; auto))).
  unfold fits_CAngularVelocity, enc_angular, sb. cbn [CAngularVelocity_x CAngularVelocity_y CAngularVelocity_z]. lia.
Qed.
Lemma pattern_fits p : narrow_pattern p -> fits_CBeamAntennaPattern (enc_bap p).
Proof.
  intros [H HR]. unfold half_turn in H. assert (K : forall b, f32_finite b /\ (-3.1416 <= f32_value b <= 3.1416)%R -> -4096 <= f32_as_i16 (sfmul (sf_of_bits b) orientation_scale) < 4096).
  { intros b [F R]. destruct orientation_ok as [T TV]. assert (Rabs (f32_value b) <= 3.1416)%R by (apply Rabs_le; lra).
    assert (TV' : (SF2R radix2 orientation_scale <= 1303.48)%R) by (clear; match goal with |- context [SF2R radix2 ?c] => let v := eval vm_compute in c in change c with v end; cbn [SF2R]; unfold F2R; cbn; lra).
    assert (0 <= Rabs (f32_value b))%R by apply Rabs_pos. unfold f32_as_i16. destruct (of_bits_fin b F) as [O V].
    destruct (mul_near (sf_of_bits b) orientation_scale O T) as [G N].
    { rewrite V, Rabs_mult, (Rabs_right (SF2R radix2 orientation_scale)) by lra. unfold huge. nra. }
    rewrite (cast_fin 24 128 _ (-32768) 32767 ltac:(lia) G). set (y := SF2R radix2 (sfmul (sf_of_bits b) orientation_scale)) in *.
    assert (M : (Rabs (f32_value b * SF2R radix2 orientation_scale) <= 4095.02)%R) by (rewrite Rabs_mult, (Rabs_right (SF2R radix2 orientation_scale)) by lra; nra).
    rewrite V in N. assert (N' : (Rabs (y - f32_value b * SF2R radix2 orientation_scale) <= 0.01)%R) by (unfold ulp24, tiny in N; lra).
    apply Rabs_le_inv in N'. apply Rabs_le_inv in M.
    assert (-4096 < Ztrunc y < 4096); [|lia]. split; apply lt_IZR; destruct (Rle_dec 0 y) as [Y|Y].
    - rewrite Ztrunc_floor by exact Y. pose proof (Zfloor_ub y). lra.
    - rewrite Ztrunc_ceil by lra. pose proof (Zceil_ub y). lra.
    - rewrite Ztrunc_floor by exact Y. pose proof (Zfloor_lb y). lra.
    - rewrite Ztrunc_ceil by lra. pose proof (Zceil_lb y). lra. }
  pose proof (K _ (H (or_psi (bap_direction p)) ltac:(cbn; tauto))). pose proof (K _ (H (or_theta (bap_direction p)) ltac:(cbn; tauto))).
  pose proof (K _ (H (or_phi (bap_direction p)) ltac:(cbn; tauto))). pose proof (K _ (H (bap_azimuth p) ltac:(cbn; tauto))).
  pose proof (K _ (H (bap_elevation p) ltac:(cbn; tauto))). pose proof (K _ (H (bap_phase p) ltac:(cbn; tauto))).
  pose proof (cast_range (-32768) 32767 (sf_of_bits (bap_ez p)) ltac:(lia)) as EZ. pose proof (cast_range (-32768) 32767 (sf_of_bits (bap_ex p)) ltac:(lia)) as EX.
  fold (f32_as_i16 (sf_of_bits (bap_ez p))) in EZ. fold (f32_as_i16 (sf_of_bits (bap_ex p))) in EX.
  unfold fits_CBeamAntennaPattern, enc_bap, ub, sb.
    cbn [CBeamAntennaPattern_psi CBeamAntennaPattern_theta CBeamAntennaPattern_phi CBeamAntennaPattern_az CBeamAntennaPattern_el CBeamAntennaPattern_ref CBeamAntennaPattern_e_z CBeamAntennaPattern_e_x CBeamAntennaPattern_phase]. lia.
Qed.
Lemma mass_fits b : ub 32 (fst (enc_mass b)) /\ ub 1 (snd (enc_mass b)).
Proof. unfold enc_mass. destruct SFleb; cbn [fst snd]; (split; [apply u32_from|unfold ub; change (2 ^ 1) with 2; lia]). Qed.
Lemma vp_fits v : wf_VariableParameter v -> narrow_parameter v -> fits_CVariableParameter (enc_vp v).
Proof.
  destruct v as [x|x|x|x|x|t b]; cbn [wf_VariableParameter narrow_parameter enc_vp fits_CVariableParameter]; unfold u8, u16, u32.
  - intros (W1 & W2 & W3 & W4 & W5) (N1 & N2 & N3 & N4 & N5 & N6). unfold fits_CArticulated, ub. cbn [car_change car_attachment car_metric car_class car_value].
    change (2 ^ 8) with 256. change (2 ^ 10) with 1024. change (2 ^ 5) with 32. change (2 ^ 14) with 16384.
    do 3 (split; [lia|]). split; [exact N3|]. split; [lia|]. now apply parameter_is_kept.
  - intros (W1 & W2 & W3 & W4) (N1 & N2 & N3 & N4). unfold fits_CAttached, ub. cbn [CAttached_detached CAttached_attachment CAttached_ptype CAttached_etype].
    change (2 ^ 1) with 2. change (2 ^ 10) with 1024. change (2 ^ 11) with 2048. do 3 (split; [lia|]). now apply type_fits.
  - intros (W1 & W2 & W3 & W4 & W5) (N1 & N2 & N3 & N4). unfold fits_CSeparation, ub. cbn [CSeparation_reason CSeparation_pre CSeparation_parent CSeparation_station CSeparation_number].
    change (2 ^ 3) with 8. change (2 ^ 6) with 64. change (2 ^ 12) with 4096. do 2 (split; [lia|]). split; [now apply eid_fits|]. lia.
  - intros (W1 & W2) (N1 & N2). unfold fits_CEntityTypeVP, ub. cbn [CEntityTypeVP_change CEntityTypeVP_etype]. change (2 ^ 1) with 2. split; [lia|]. now apply type_fits.
  - intros (W1 & W2 & W3 & W4 & W5 & W6 & W7 & W8) (N1 & N2 & N3 & N4 & N5). unfold fits_CAssociation, ub.
    cbn [CAssociation_change CAssociation_status CAssociation_atype CAssociation_entity CAssociation_station CAssociation_connection CAssociation_member CAssociation_group].
    change (2 ^ 1) with 2. change (2 ^ 4) with 16. change (2 ^ 8) with 256. change (2 ^ 6) with 64. change (2 ^ 5) with 32. change (2 ^ 16) with 65536.
    do 3 (split; [lia|]). split; [now apply eid_fits|]. lia.
  - intros _ [].
Qed.
Lemma vps_fit l : Forall wf_VariableParameter l -> Forall narrow_parameter l -> Forall (fun a => fits_CVariableParameter a) (map enc_vp l).
Proof. intros W N. induction l as [|v l IH]; [constructor|]. inversion W; inversion N; subst. constructor; [now apply vp_fits|now apply IH]. Qed.
(** ** Bodies *)
Ltac some_ub := let a := fresh in let E := fresh in intros a E; first [discriminate E | injection E as <-].
Ltac pows := unfold ub; change (2 ^ 1) with 2; change (2 ^ 2) with 4; change (2 ^ 3) with 8; change (2 ^ 4) with 16; change (2 ^ 8) with 256; change (2 ^ 16) with 65536; change (2 ^ 32) with 4294967296.
Lemma from_u32 f a : sf_from 0 4294967295 f = Some a -> ub 32 a.
Proof.
  unfold sf_from, ub. change (2 ^ 32) with 4294967296. destruct f as [s|s| |s p e]; try discriminate.
  - intros [= <-]. lia.
  - destruct (Z.leb_spec 0 (sf_trunc s p e)), (Z.leb_spec (sf_trunc s p e) 4294967295); cbn [andb]; intros E; try discriminate E. injection E as <-. lia.
Qed.
Lemma collision_fits x : wf_Collision x -> narrow_collision x -> fits_CCollision (enc_collision x).
Proof.
  unfold wf_Collision, narrow_collision, enc_collision, u8. intros (W1 & W2 & W3 & W4 & W5 & W6 & W7) N.
  pose proof (coordinates_fit (Collision_location x)) as [C U]. pose proof (mass_fits (Collision_mass x)) as [M UM].
  destruct (enc_ecv (Collision_location x)) as [loc u]. destruct (enc_mass (Collision_mass x)) as [ma um]. cbn [fst snd] in C, U, M, UM.
  unfold fits_CCollision. cbn [CCollision_units CCollision_issuing CCollision_colliding CCollision_event CCollision_ctype CCollision_velocity CCollision_mass CCollision_location fst snd].
  split; [split; assumption|]. split; [now apply eid_fits|]. split; [now apply eid_fits|]. split; [now apply event_fits|]. split; [pows; lia|].
  split; [apply velocity_fits|]. split; assumption.
Qed.
Lemma count_fits n a : 0 <= n -> enc_count n = Some a -> ub 8 a.
Proof. unfold enc_count. destruct (Z.eqb_spec n 0); intros H E; [discriminate E|]. injection E as <-. pows. lia. Qed.
Lemma count_some n k : (n = 0 <-> k = 0) -> is_some (enc_count n) = is_some (enc_count k).
Proof. unfold enc_count. intros H. destruct (Z.eqb_spec n 0), (Z.eqb_spec k 0); cbn [is_some]; try reflexivity; exfalso; tauto. Qed.
Lemma fire_fits g x : wf_Fire x -> narrow_fire g x -> fits_CFire (enc_fire g x).
Proof.
  unfold wf_Fire, narrow_fire, narrow_descriptor, enc_fire. intros (W1 & W2 & W3 & W4 & W5 & W6 & W7 & W8 & W9) (N1 & N2 & N3).
  destruct (place_crosses g _ N1) as (PF & PU & _). destruct (enc_world g (Fire_location_in_world x)) as [wl u]. cbn [fst snd] in PF, PU.
  assert (R : forall a, (if f32_is_normal (Fire_range x) then sf_from 0 4294967295 (sf_of_bits (Fire_range x)) else None) = Some a -> ub 32 a).
  { intros a. destruct f32_is_normal; [apply from_u32|discriminate]. }
  assert (MI : forall a, (if Fire_fire_mission_index x =? 0 then None else Some (Fire_fire_mission_index x)) = Some a -> ub 32 a).
  { intros a. destruct (_ =? _); intros E; [discriminate E|injection E as <-]. unfold u32 in W5. pows. lia. }
  destruct (Fire_descriptor x) as [t mu|t|t mat fo]; cbn [descriptor_type] in N2, N3; unfold enc_munition, no_munition;
  unfold fits_CFire; cbn [CFire_etype CFire_firing CFire_target CFire_munition CFire_event CFire_mission CFire_location CFire_units CFire_warhead CFire_fuze CFire_quantity CFire_rate CFire_velocity CFire_range];
  (split; [exact PU|]); (split; [now apply eid_fits|]); (split; [now apply eid_fits|]); (split; [now apply eid_fits|]); (split; [now apply event_fits|]);
  (split; [exact MI|]); (split; [exact PF|]).
  - destruct W7 as [WT (M1 & M2 & M3 & M4)]. unfold u16 in *. split; [now apply type_fits|]. split; [some_ub; pows; lia|]. split; [some_ub; pows; lia|].
    split; [intros a; apply count_fits; lia|]. split; [intros a; apply count_fits; lia|]. split; [apply velocity_fits|]. split; [exact R|]. split; [reflexivity|]. now apply count_some.
  - split; [now apply type_fits|]. do 4 (split; [some_ub|]). split; [apply velocity_fits|]. split; [exact R|]. split; reflexivity.
  - destruct W7 as [WT _]. split; [now apply type_fits|]. do 4 (split; [some_ub|]). split; [apply velocity_fits|]. split; [exact R|]. split; reflexivity.
Qed.
Lemma detonation_fits g x : wf_Detonation x -> narrow_detonation g x -> fits_CDetonation (enc_detonation g x).
Proof.
  unfold wf_Detonation, narrow_detonation, narrow_descriptor, enc_detonation. intros (W1 & W2 & W3 & W4 & W5 & W6 & W7 & W8 & W9 & W10) (N1 & (N2 & N3) & N4 & N5).
  destruct (place_crosses g _ N1) as (PF & PU & _). destruct (enc_world g (Detonation_world_location x)) as [wl u]. cbn [fst snd] in PF, PU.
  pose proof (coordinates_fit (Detonation_entity_location x)) as [C U]. destruct (enc_ecv (Detonation_entity_location x)) as [el ue]. cbn [fst snd] in C, U.
  assert (VL : zlen (map enc_vp (Detonation_variable_parameters x)) < 256) by (unfold zlen in *; rewrite map_length; exact N5).
  pose proof (vps_fit _ W10 N4) as VF. unfold u8 in W9.
  destruct (Detonation_descriptor x) as [t mu|t|t mat fo]; cbn [descriptor_type] in N2, N3; unfold enc_munition, no_munition;
  unfold fits_CDetonation; cbn [CDetonation_units CDetonation_source CDetonation_target CDetonation_exploding CDetonation_event CDetonation_velocity CDetonation_location CDetonation_etype CDetonation_warhead CDetonation_fuze CDetonation_quantity CDetonation_rate CDetonation_material CDetonation_force CDetonation_location_entity CDetonation_result CDetonation_vps fst snd];
  (split; [split; [exact PU|exact U]|]); (split; [now apply eid_fits|]); (split; [now apply eid_fits|]); (split; [now apply eid_fits|]); (split; [now apply event_fits|]);
  (split; [apply velocity_fits|]); (split; [exact PF|]).
  - destruct W7 as [WT (M1 & M2 & M3 & M4)]. unfold u16 in *. split; [now apply type_fits|]. split; [some_ub; pows; lia|]. split; [some_ub; pows; lia|].
    split; [intros a; apply count_fits; lia|]. split; [intros a; apply count_fits; lia|]. do 2 (split; [some_ub|]). split; [exact C|]. split; [pows; lia|]. split; [exact VF|].
    split; [reflexivity|]. split; [now apply count_some|]. split; [reflexivity|exact VL].
  - split; [now apply type_fits|]. do 6 (split; [some_ub|]). split; [exact C|]. split; [pows; lia|]. split; [exact VF|]. do 3 (split; [reflexivity|]). exact VL.
  - destruct W7 as (WT & WM & WF). split; [now apply type_fits|]. do 4 (split; [some_ub|]). split; [some_ub; unfold u16 in WM; pows; lia|].
    split; [some_ub; now apply force_is_kept|]. split; [exact C|]. split; [pows; lia|]. split; [exact VF|]. do 3 (split; [reflexivity|]). exact VL.
Qed.
Lemma power_fits b : f32_finite b -> (-256 <= f32_value b <= 255)%R -> sb 9 (unopt 0 (sf_from (-32768) 32767 (sf_of_bits b))).
Proof.
  intros F B. destruct (of_bits_fin b F) as [O V]. rewrite (from_ok (-32768) 32767 _ O ltac:(lia)) by (rewrite V; lra). cbn [unopt]. rewrite V. unfold sb. change (2 ^ (9 - 1)) with 256.
  assert (-256 <= Ztrunc (f32_value b)) by (rewrite <- (Ztrunc_IZR (-256)); apply Ztrunc_le; lra).
  assert (Ztrunc (f32_value b) <= 255) by (rewrite <- (Ztrunc_IZR 255); apply Ztrunc_le; lra). lia.
Qed.
Lemma receiver_fits x : wf_Receiver x -> narrow_receiver x -> fits_CReceiver (enc_receiver x).
Proof.
  unfold wf_Receiver, narrow_receiver, enc_receiver, u16. intros (W1 & W2 & W3 & W4 & W5 & W6) (N1 & N2 & N3).
  unfold fits_CReceiver. cbn [CReceiver_radio CReceiver_number CReceiver_state CReceiver_power CReceiver_tradio CReceiver_tnumber].
  split; [now apply eid_fits|]. split; [pows; lia|]. split; [pows; lia|]. split; [now apply power_fits|]. split; [now apply eid_fits|]. pows; lia.
Qed.
Lemma signal_fits x : wf_Signal x -> narrow_signal x -> fits_CSignal (enc_signal x).
Proof.
  unfold wf_Signal, narrow_signal, enc_signal. intros (W1 & W2 & W3 & W4 & W5 & W6 & W7) (N1 & N2 & N3). unfold u16, u32 in *.
  unfold fits_CSignal. cbn [CSignal_radio CSignal_number CSignal_encoding CSignal_tdl CSignal_rate CSignal_samples CSignal_data].
  split; [now apply eid_fits|]. split; [pows; lia|]. split.
  { unfold fits_CEncodingScheme, enc_scheme. destruct (Signal_encoding_scheme x) as [c t|c n|c u|c i o d|c]; cbn [wf_EncodingScheme] in W3; unfold u16 in W3; cbn [cen_class cen_value cen_variant].
    - destruct N3 as [-> T]. split; [pows; lia|]. split; [pows; lia|reflexivity].
    - subst c. split; [pows; lia|]. split; [pows; apply Z.mod_pos_bound; lia|reflexivity].
    - split; [pows; lia|]. split; [pows; lia|]. destruct (Z.eqb_spec c 0); [lia|]. destruct (Z.eqb_spec c 1); [lia|reflexivity].
    - split; [pows; lia|]. split; [pows; lia|]. destruct (Z.eqb_spec c 0); [lia|]. destruct (Z.eqb_spec c 1); [lia|reflexivity].
    - split; [pows; lia|]. split; [pows; lia|]. destruct (Z.eqb_spec c 0); [lia|]. destruct (Z.eqb_spec c 1); [lia|reflexivity]. }
  split; [pows; lia|]. split; [intros a; destruct (is_audio _); intros E; [injection E as <-; pows; lia|discriminate E]|].
  split; [intros a; destruct (is_audio _); intros E; [injection E as <-; pows; lia|discriminate E]|].
  split; [|exact N2]. unfold bytes in W7. eapply Forall_impl; [|exact W7]. intros a H. unfold u8 in H. pows. exact H.
Qed.
Lemma in_alphabet c : In c (letters ++ digits ++ signs) -> In c six_table /\ 0 <= c < 128.
Proof. unfold letters, digits, signs. intros H. repeat (destruct H as [<-|H]; [split; [cbn; tauto|lia]|]). destruct H. Qed.
Lemma five_alphabet c : In c (letters ++ digits ++ signs) -> ~ In c ([74; 75; 81; 88; 90] ++ signs) -> c <> 89 -> In c dec5_table.
Proof. unfold letters, digits, signs. intros H N Y. repeat (destruct H as [<-|H]; [first [exfalso; apply N; cbn; tauto|exfalso; apply Y; reflexivity|cbn; tauto]|]). destruct H. Qed.
Lemma wide_text s c : In c s -> In c ([74; 75; 81; 88; 90] ++ signs) -> five_bit_ok s = false.
Proof.
  intros I W. unfold five_bit_ok. apply andb_false_iff. unfold signs in W. cbn [app] in W.
  do 5 (destruct W as [<-|W]; [right; apply negb_false_iff, existsb_exists; eexists; split; [exact I|reflexivity]|]).
  left. destruct (forallb is_ascii_alnum (filter (fun c0 => negb (c0 =? 0)) s)) eqn:E; [|reflexivity]. exfalso. rewrite forallb_forall in E. specialize (E c).
  assert (X : is_ascii_alnum c = false /\ c <> 0) by (repeat (destruct W as [<-|W]; [split; [reflexivity|lia]|]); destruct W). destruct X as [X Z].
  rewrite E in X; [discriminate X|]. apply filter_In. split; [exact I|]. apply negb_true_iff, Z.eqb_neq, Z.
Qed.
Lemma marking_fits s mk : narrow_text s -> zlen s <= 11 -> cmarking_new (utf8_lossy s) = Some mk -> fits_CMarking mk.
Proof.
  intros [A Y] L E. assert (AS : Forall (fun c => 0 <= c < 128) s) by (apply Forall_forall; intros c H; apply in_alphabet, A, H).
  rewrite lossy_ascii in E by exact AS. unfold cmarking_new in E. rewrite <- utf8_encode_len, encode_ascii in E by exact AS.
  destruct (Z.ltb_spec 11 (zlen s)); [lia|]. injection E as <-. unfold fits_CMarking. cbn [cm_chars cm_six]. split; [lia|]. apply Forall_forall. intros c I.
  pose proof (in_alphabet c (A c I)) as [S _]. unfold codable. destruct (five_bit_ok s) eqn:F; cbn [negb]; [|split; [exact S|discriminate]].
  assert (N : forall c, In c s -> ~ In c ([74; 75; 81; 88; 90] ++ signs)) by (intros d Id W; now rewrite (wide_text s d Id W) in F).
  assert (NY : c <> 89) by (intros ->; destruct (Y I) as (d & Id & W); exact (N d Id W)).
  split; [apply five_alphabet; auto|intros _; exact NY].
Qed.
Lemma of_octets_bound l : bytes l -> 0 <= of_octets l 0 < 256 ^ Z.of_nat (length l).
Proof.
  induction l as [|b l IH]; intros H; [cbn; lia|]. inversion H; subst. specialize (IH H3). cbn [of_octets length]. rewrite of_octets_acc. rewrite Nat2Z.inj_succ, Z.pow_succ_r by lia.
  unfold u8 in *. pose proof (Z.pow_pos_nonneg 256 (Z.of_nat (length l)) ltac:(lia) ltac:(lia)). nia.
Qed.
Lemma dr_other_fits alg d a : wf_DrOther d -> enc_dr_other alg d = Some a -> ub 120 a.
Proof.
  intros W. unfold enc_dr_other. destruct (alg =? 0); [discriminate|]. unfold some_nonzero. destruct (_ =? 0); [discriminate|]. intros E. injection E as <-.
  unfold dr_other_value, ub. change (2 ^ 120) with (256 ^ Z.of_nat 15).
  assert (X : exists bs n, w_dr_other d = WOk bs n /\ bytes bs /\ length bs = 15%nat).
  { destruct d as [l|a b c|n x y z]; cbn [w_dr_other wf_DrOther] in *.
    - eexists. eexists. split; [reflexivity|]. rewrite app_nil_r. unfold zlen in W. split; [apply W|lia].
    - eexists. eexists. split; [reflexivity|]. split; [cbn; repeat constructor; try lia; apply Z.mod_pos_bound; lia|reflexivity].
    - eexists. eexists. split; [reflexivity|]. split; [cbn; repeat constructor; try lia; apply Z.mod_pos_bound; lia|reflexivity]. }
  destruct X as (bs & n & -> & B & L). rewrite <- L. now apply of_octets_bound.
Qed.
Lemma entity_state_fits g o now st x c u : wf_EntityState x -> narrow_entity_state g x -> enc_es g o now st x = Some (c, u) -> fits_CEntityState c.
Proof.
  unfold wf_EntityState, narrow_entity_state, narrow_movement, narrow_identity. cbv zeta.
  intros (W1 & W2 & W3 & W4 & W5 & W6 & W7 & W8 & W9 & W10 & W11 & W12) ((M1 & M2 & M3 & M4 & M5 & M6) & I1 & I2 & I3 & I4 & I5). unfold enc_es. cbv zeta.
  destruct W9 as (D1 & D2 & D3 & D4).
  assert (VL : zlen (map enc_vp (EntityState_variable_parameters x)) < 256) by (unfold zlen in *; rewrite map_length; exact M6).
  pose proof (vps_fit _ W12 M5) as VF. unfold u8, wf_EntityAppearance, wf_EntityCapabilities, u32 in *.
  assert (AL : forall a, (if etype_eqb (EntityState_alternative_entity_type x) zero_type then None else Some (enc_etype (EntityState_alternative_entity_type x))) = Some a -> fits_CEntityType a).
  { intros a. destruct etype_eqb; intros E; [discriminate E|injection E as <-; now apply type_fits]. }
  assert (VE : forall a, enc_es_velocity (dr_algorithm (EntityState_dr x)) (EntityState_velocity x) = Some a -> fits_CLinearVelocity a).
  { intros a. unfold enc_es_velocity. destruct (_ || _); intros E; [discriminate E|injection E as <-; apply velocity_fits]. }
  assert (AC : forall a, enc_dr_acceleration (dr_algorithm (EntityState_dr x)) (dr_acceleration (EntityState_dr x)) = Some a -> fits_CLinearAcceleration a).
  { intros a E. destruct (in_dec Z.eq_dec (dr_algorithm (EntityState_dr x)) [4; 5; 8; 9]) as [K|K].
    - rewrite acceleration_sent in E by exact K. injection E as <-. apply acceleration_fits, M2, K.
    - rewrite acceleration_unsent in E by exact K. discriminate E. }
  assert (AN : forall a, enc_dr_angular (dr_algorithm (EntityState_dr x)) (dr_velocity (EntityState_dr x)) = Some a -> fits_CAngularVelocity a).
  { intros a E. destruct (in_dec Z.eq_dec (dr_algorithm (EntityState_dr x)) [3; 4; 7; 8]) as [K|K].
    - rewrite rotation_sent in E by exact K. injection E as <-. apply turning_fits, M3, K.
    - rewrite rotation_unsent in E by exact K. discriminate E. }
  assert (CA : forall a, enc_capabilities o (EntityState_capabilities x) = Some a -> ub 32 a).
  { intros a. unfold enc_capabilities, some_nonzero. destruct (o_complete o); [|discriminate]. destruct (_ =? 0); intros E; [discriminate E|injection E as <-; pows; lia]. }
  pose proof (fun a => dr_other_fits (dr_algorithm (EntityState_dr x)) (dr_other (EntityState_dr x)) a D2) as OT.
  destruct (place_crosses g _ I2) as (PF & PU & _).
  destruct (partial_ok o _ now st).
  - intros E. injection E as <- _. unfold fits_CEntityState. es_proj. split; [pows; lia|]. split; [now apply eid_fits|]. do 2 (split; [some_ub|]). split; [exact AL|]. split; [exact VE|].
    do 3 (split; [some_ub|]). split; [pows; lia|]. split; [exact OT|]. split; [exact AC|]. split; [exact AN|]. split; [some_ub|]. split; [exact CA|]. split; [exact VF|exact VL].
  - destruct (enc_world g (EntityState_location x)) as [loc units]. cbn [fst snd] in PF, PU. destruct (cmarking_new _) as [mk|] eqn:MK; [|discriminate]. intros E. injection E as <- _.
    unfold fits_CEntityState. es_proj. split; [exact PU|]. split; [now apply eid_fits|]. split; [some_ub; pows; lia|]. split; [some_ub; now apply type_fits|]. split; [exact AL|]. split; [exact VE|].
    split; [some_ub; exact PF|]. split; [some_ub; now apply orientation_fits|]. split; [some_ub; pows; lia|]. split; [pows; lia|]. split; [exact OT|]. split; [exact AC|]. split; [exact AN|].
    split; [some_ub; eapply marking_fits; eassumption|]. split; [exact CA|]. split; [exact VF|exact VL].
Qed.
Lemma nothing_zero v : wf_VectorF32 v -> vec_zero v = true <-> nothing v.
Proof.
  destruct v as [a b c]. unfold wf_VectorF32, vec_zero, nothing, f32_zero, u32. cbn [v_1 v_2 v_3 In]. intros (A & B & C). rewrite !andb_true_iff, !orb_true_iff, !Z.eqb_eq. split.
  - intros ((X & Y) & Z) b' [<- | [<- | [<- | []]]]; assumption.
  - intros H. split; [split|]; apply H; auto.
Qed.
Lemma f32_to_u32_fits b : ub 32 (f32_to_u32 b).
Proof. unfold f32_to_u32. change (2 ^ 32 - 1) with 4294967295. destruct (sf_from _ _ _) eqn:E; cbn [unopt]; [now apply from_u32 in E|pows; lia]. Qed.
Lemma designator_fits g o now st x : wf_Designator x -> narrow_designator g x -> fits_CDesignator (fst (enc_designator g o now st x)).
Proof.
  unfold wf_Designator, narrow_designator. intros (W1 & W2 & W3 & W4 & W5 & W6 & W7 & W8 & W9 & W10) (N1 & N2 & N3 & N4). unfold enc_designator. cbv zeta.
  assert (DS : is_some (if vec_zero (Designator_spot_wrt_designated_entity x) then None else Some (fst (enc_ecv (Designator_spot_wrt_designated_entity x)))) =
    is_some (if eid_eqb (Designator_designated_entity_id x) zero_id then None else Some (enc_eid (Designator_designated_entity_id x)))).
  { pose proof (nothing_zero _ W7) as NZ. pose proof (eid_eqb_eq (Designator_designated_entity_id x) zero_id) as EZ. unfold no_entity in N3.
    destruct (vec_zero _), (eid_eqb _ _); try reflexivity; exfalso.
    - assert (eq : false = true) by (apply EZ, N3, NZ; reflexivity). discriminate eq.
    - assert (eq : false = true) by (apply NZ, N3, EZ; reflexivity). discriminate eq. }
  assert (DE : forall a, (if eid_eqb (Designator_designated_entity_id x) zero_id then None else Some (enc_eid (Designator_designated_entity_id x))) = Some a -> fits_CEntityId a).
  { intros a. destruct (eid_eqb _ _); intros E; [discriminate E|injection E as <-; now apply eid_fits]. }
  destruct (coordinates_fit (Designator_spot_wrt_designated_entity x)) as [CF CU].
  destruct (enc_ecv (Designator_spot_wrt_designated_entity x)) as [v u] eqn:EV. cbn [fst snd] in *.
  rewrite (acceleration_sent _ _ N1). pose proof (acceleration_fits _ N2) as AF.
  assert (AL : ub 4 (Designator_dead_reckoning_algorithm x)) by (unfold accelerates in N1; cbn [In] in N1; pows; lia).
  assert (SP : exists s eu, (if vec_zero (Designator_spot_wrt_designated_entity x) then (None, 0) else (Some v, u)) = (s, eu) /\ ub 1 eu /\ (forall a, s = Some a -> fits_CEntityCoordinateVector a) /\
    is_some s = is_some (if vec_zero (Designator_spot_wrt_designated_entity x) then None else Some v)).
  { destruct (vec_zero _); eexists; eexists; (split; [reflexivity|]); (split; [first [exact CU|pows; lia]|]); (split; [|reflexivity]); some_ub; exact CF. }
  destruct SP as (s & eu & SE & SU & SF & SS). rewrite SE. rewrite <- SS in DS. clear SS SE.
  destruct (place_crosses g _ N4) as (PF & PU & _). unfold u16, wf_EntityId in *.
  destruct (partial_ok _ _ _ _).
  - unfold fits_CDesignator. cbn [fst snd CDesignator_units CDesignator_full CDesignator_id CDesignator_code_name CDesignator_designated CDesignator_code CDesignator_power CDesignator_wavelength CDesignator_spot_entity CDesignator_spot_location CDesignator_dr_algorithm CDesignator_dr_acceleration].
    split; [split; [exact SU|pows; lia]|]. split; [now apply eid_fits|]. split; [some_ub|]. split; [exact DE|]. do 3 (split; [some_ub|]). split; [exact SF|]. split; [some_ub|]. split; [some_ub; exact AL|].
    split; [some_ub; exact AF|]. split; [exact DS|]. repeat split.
  - destruct (enc_world g (Designator_spot_location x)) as [loc wu]. cbn [fst snd] in PF, PU. unfold fits_CDesignator.
    cbn [fst snd CDesignator_units CDesignator_full CDesignator_id CDesignator_code_name CDesignator_designated CDesignator_code CDesignator_power CDesignator_wavelength CDesignator_spot_entity CDesignator_spot_location CDesignator_dr_algorithm CDesignator_dr_acceleration].
    split; [split; [exact SU|exact PU]|]. split; [now apply eid_fits|]. split; [some_ub; pows; lia|]. split; [exact DE|]. split; [some_ub; pows; lia|]. do 2 (split; [some_ub; apply f32_to_u32_fits|]).
    split; [exact SF|]. split; [some_ub; exact PF|]. split; [some_ub; exact AL|]. split; [some_ub; exact AF|]. split; [exact DS|]. repeat split.
Qed.
Lemma modulation_fits t : wf_ModulationType t -> narrow_radio_modulation t -> fits_CModulation (enc_modulation t).
Proof.
  destruct t as [s mm y]. unfold wf_ModulationType, narrow_radio_modulation, fits_CModulation, enc_modulation. cbn [mt_spread mt_major mt_system CModulation_spread CModulation_major CModulation_detail CModulation_system].
  unfold u16. intros [W1 W2] [Y M]. pows. split; [destruct s as [[] [] []]; vm_compute; split; congruence|].
  rewrite (Z.mod_small y) by lia. destruct mm as [|k d|d]; cbn [major_to_bytes fst snd]; unfold wf_MajorModulation, u16 in W1; rewrite ?Z.mod_small by lia; lia.
Qed.
Lemma crypto_fits k : wf_CryptoKeyId k -> ub 16 (crypto_to_u16 k).
Proof.
  unfold wf_CryptoKeyId, u16, crypto_to_u16. intros H. pows. rewrite Z.shiftl_mul_pow2 by lia. change (2 ^ 1) with 2.
  assert (K : exists q, (ck_key k * 2) mod 65536 = 2 * q /\ 0 <= q < 32768).
  { exists (ck_key k mod 32768). replace 65536 with (2 * 32768) by reflexivity. rewrite Z.mul_comm, Z.mul_mod_distr_l by lia. split; [reflexivity|]. apply Z.mod_pos_bound. lia. }
  destruct K as (q & -> & Q). destruct (ck_diphase k); lia.
Qed.
Lemma octets_fit l : bytes l -> Forall (ub 8) l.
Proof. unfold bytes. intros H. eapply Forall_impl; [|exact H]. intros a A. unfold u8 in *. pows. lia. Qed.
Lemma transmitter_fits g o now st x : wf_Transmitter x -> narrow_transmitter g x -> fits_CTransmitter (fst (enc_transmitter g o now st x)) /\ tx_ok (fst (enc_transmitter g o now st x)).
Proof.
  unfold wf_Transmitter, narrow_transmitter.
  intros (W1 & W2 & W3 & W4 & W5 & W6 & W7 & W8 & W9 & W10 & W11 & W12 & W13 & W14 & W15 & W16 & W17) (N1 & N2 & N3 & N4 & N5 & N6 & N7 & N8 & N9 & N10 & N11 & N12 & N13 & N14).
  unfold enc_transmitter. cbv zeta.
  assert (SY : forall a, some_nonzero (Transmitter_crypto_system x) = Some a -> ub 4 a).
  { intros a. unfold some_nonzero, u16 in *. destruct (_ =? 0); intros E; [discriminate E|injection E as <-; pows; lia]. }
  assert (KY : forall a, (if Transmitter_crypto_system x =? 0 then None else Some (crypto_to_u16 (Transmitter_crypto_key_id x))) = Some a -> ub 16 a).
  { intros a. destruct (_ =? 0); intros E; [discriminate E|injection E as <-; now apply crypto_fits]. }
  assert (KS : is_some (if Transmitter_crypto_system x =? 0 then None else Some (crypto_to_u16 (Transmitter_crypto_key_id x))) = is_some (some_nonzero (Transmitter_crypto_system x))).
  { unfold some_nonzero. destruct (_ =? 0); reflexivity. }
  assert (MP : Forall (ub 8) (unopt [] (Transmitter_modulation_parameters x)) /\ zlen (unopt [] (Transmitter_modulation_parameters x)) < 256).
  { destruct (Transmitter_modulation_parameters x) as [l|]; cbn [unopt]; [|split; [constructor|reflexivity]]. split; [apply octets_fit, W15|now apply N4]. }
  destruct MP as [MP ML].
  assert (PT : forall a, option_map (fun _ => Transmitter_antenna_pattern_type x) (Transmitter_antenna_pattern x) = Some a -> ub 3 a).
  { intros a. destruct (Transmitter_antenna_pattern x) as [p|]; cbn [option_map]; intros E; [|discriminate E]. injection E as <-. destruct (N5 p eq_refl) as [_ K]. unfold u16 in W8. pows. lia. }
  assert (PA : forall a, option_map enc_bap (Transmitter_antenna_pattern x) = Some a -> fits_CBeamAntennaPattern a).
  { intros a. destruct (Transmitter_antenna_pattern x) as [p|]; cbn [option_map]; intros E; [|discriminate E]. injection E as <-. destruct (N5 p eq_refl) as [K _]. now apply pattern_fits. }
  assert (PS : is_some (option_map enc_bap (Transmitter_antenna_pattern x)) = is_some (option_map (fun _ => Transmitter_antenna_pattern_type x) (Transmitter_antenna_pattern x))) by (destruct (Transmitter_antenna_pattern x); reflexivity).
  assert (VF : Forall (fun a => fits_cVTP a) (Transmitter_vtps x)).
  { rewrite Forall_forall in *. intros v I. destruct (W17 v I) as [A B]. specialize (N8 v I). cbv beta in N8. unfold fits_cVTP. split; [unfold u32 in A; pows; lia|]. split; [now apply octets_fit|lia]. }
  assert (NE : nonempty (Transmitter_vtps x) = true) by (destruct (Transmitter_vtps x); [now elim N6|reflexivity]).
  destruct (place_crosses g _ N10) as (PF & PU & _). destruct (coordinates_fit (Transmitter_relative_antenna_location x)) as [CF CU].
  unfold u16, u8 in *.
  destruct (partial_ok _ _ _ _).
  - split; [|exact NE]. unfold fits_CTransmitter.
    cbn [fst snd CTransmitter_units CTransmitter_full CTransmitter_radio CTransmitter_number CTransmitter_rtype CTransmitter_state CTransmitter_source CTransmitter_antenna CTransmitter_relative CTransmitter_ptype CTransmitter_frequency CTransmitter_bandwidth CTransmitter_power CTransmitter_modulation CTransmitter_crypto CTransmitter_key CTransmitter_modparams CTransmitter_pattern CTransmitter_vtps].
    split; [split; pows; lia|]. split; [now apply eid_fits|]. split; [pows; lia|]. split; [some_ub|]. split; [pows; lia|]. split; [pows; lia|]. do 2 (split; [some_ub|]). split; [exact PT|].
    do 4 (split; [some_ub|]). split; [exact SY|]. split; [exact KY|]. split; [exact MP|]. split; [exact PA|]. split; [exact VF|]. split; [exact ML|]. split; [exact N7|]. split; [exact PS|].
    do 3 (split; [reflexivity|]). exact KS.
  - destruct (enc_world g (Transmitter_antenna_location x)) as [loc wu]. cbn [fst snd] in PF, PU.
    destruct (enc_ecv (Transmitter_relative_antenna_location x)) as [rel eu]. cbn [fst snd] in CF, CU.
    split; [|exact NE]. unfold fits_CTransmitter.
    cbn [fst snd CTransmitter_units CTransmitter_full CTransmitter_radio CTransmitter_number CTransmitter_rtype CTransmitter_state CTransmitter_source CTransmitter_antenna CTransmitter_relative CTransmitter_ptype CTransmitter_frequency CTransmitter_bandwidth CTransmitter_power CTransmitter_modulation CTransmitter_crypto CTransmitter_key CTransmitter_modparams CTransmitter_pattern CTransmitter_vtps].
    split; [split; [exact PU|exact CU]|]. split; [now apply eid_fits|]. split; [pows; lia|]. split; [some_ub; now apply type_fits|]. split; [pows; lia|]. split; [pows; lia|].
    split; [some_ub; exact PF|]. split; [some_ub; exact CF|]. split; [exact PT|]. split; [some_ub; apply hertz_fits; unfold u64 in W9; lia|]. split; [some_ub; now apply bandwidth_kept|].
    split; [some_ub; pose proof (cast_range 0 255 (sf_of_bits (Transmitter_power x)) ltac:(lia)); pows; lia|]. split; [some_ub; now apply modulation_fits|].
    split; [exact SY|]. split; [exact KY|]. split; [exact MP|]. split; [exact PA|]. split; [exact VF|]. split; [exact ML|]. split; [exact N7|]. split; [exact PS|].
    do 3 (split; [reflexivity|]). exact KS.
Qed.

(** * Parsers and the wire layout, the other way round: octets that show the table of a PDU are read as that PDU *)
From Coq Require Import ZArith List Lia Bool.
From Verif Require Import Base Utf8 DisCommon DisLists DisHeader DisSimman DisLogistics DisWarfare DisEntity DisEmission DisRadio DisIff DisPdu DisPacket Parsed SpecLayout Layout LayoutP SpecLegible.
Import ListNotations. Open Scope Z_scope.

Definition Takes {A} (p : bparser A) (x : A) (L : list item) : Prop := forall os r, bytes os -> shows L os -> p (os ++ r) = POk r x.
Lemma bytes_app_inv a b : bytes (a ++ b) -> bytes a /\ bytes b.
Proof. unfold bytes. apply Forall_app. Qed.
Lemma Takes_ret {A} (x y : A) : x = y -> Takes (pret x) y [].
Proof. intros -> os r B (p & -> & H). inversion H. reflexivity. Qed.
Lemma Takes_nil {A} (p : bparser A) x L : Takes p x (L ++ []) -> Takes p x L. Proof. now rewrite app_nil_r. Qed.
Lemma Takes_un {A} (p : bparser A) x L : Takes p x L -> Takes p x (L ++ []). Proof. now rewrite app_nil_r. Qed.
Lemma Takes_bind {A B} (p : bparser A) a L1 (f : A -> bparser B) x L2 : Takes p a L1 -> Takes (f a) x L2 -> Takes (pbind p f) x (L1 ++ L2).
Proof.
  intros H1 H2 os r B0 H. apply shows_app_inv in H. destruct H as (u & v & -> & Hu & Hv). apply bytes_app_inv in B0. destruct B0 as [Bu Bv].
  unfold pbind. rewrite <- app_assoc, (H1 u (v ++ r) Bu Hu). now apply H2.
Qed.
(** the value read is not known, only what it stands for *)
Lemma Takes_some {A B} (p : bparser A) (P : A -> Prop) i (f : A -> bparser B) x L :
  (forall os r, bytes os -> accepts i os -> exists a, P a /\ p (os ++ r) = POk r a) -> (forall a, P a -> Takes (f a) x L) -> Takes (pbind p f) x (i :: L).
Proof.
  intros H1 H2 os r B0 H. apply (shows_app_inv [i]) in H. destruct H as (u & v & -> & Hu & Hv). apply bytes_app_inv in B0. destruct B0 as [Bu Bv].
  apply shows_one in Hu. unfold pbind. rewrite <- app_assoc. destruct (H1 u (v ++ r) Bu Hu) as (a & Ha & ->). now apply H2.
Qed.
Lemma Takes_pure {A B} (p : bparser A) a (f : A -> bparser B) x L : (forall i, p i = POk i a) -> Takes (f a) x L -> Takes (pbind p f) x L.
Proof. intros H1 H2 os r B0 H. unfold pbind. rewrite H1. now apply H2. Qed.
Lemma Takes_ext {A} (p q : bparser A) x L : (forall i, p i = q i) -> Takes q x L -> Takes p x L.
Proof. intros H G os r B0 S. rewrite H. now apply G. Qed.
Lemma read_u n os r : length os = n -> be_u n (os ++ r) = POk r (be_val os).
Proof.
  intros <-. unfold be_u. rewrite app_length. destruct (Nat.ltb_spec (length os + length r) (length os)); [lia|].
  rewrite firstn_app, Nat.sub_diag, firstn_all, app_nil_r, skipn_app, skipn_all, Nat.sub_diag. reflexivity.
Qed.
Lemma Takes_field {B} n s (P : Z -> Prop) (f : Z -> bparser B) x L :
  (forall w, 0 <= w < 256 ^ Z.of_nat n -> P w -> Takes (f w) x L) -> Takes (pbind (be_u n) f) x (Field n s P :: L).
Proof.
  intros H. apply (Takes_some _ (fun w => 0 <= w < 256 ^ Z.of_nat n /\ P w)); [|intros a []; auto].
  intros os r B0 [Hl HP]. exists (be_val os). split; [split; [|exact HP]|now apply read_u].
  pose proof (be_val_bound os B0) as Hb. unfold zlen in Hb. rewrite Hl in Hb. exact Hb.
Qed.
Lemma Takes_int {B} n v (f : Z -> bparser B) x L : 0 <= v < 256 ^ Z.of_nat n -> Takes (f v) x L -> Takes (pbind (be_u n) f) x (Int n v :: L).
Proof. intros Hv H. apply Takes_field. intros w _ ->. now rewrite Z.mod_small. Qed.
Lemma Takes_u8 {B} v (f : Z -> bparser B) x L : u8 v -> Takes (f v) x L -> Takes (pbind be_u8 f) x (Int 1 v :: L). Proof. exact (@Takes_int B 1 v f x L). Qed.
Lemma Takes_u16 {B} v (f : Z -> bparser B) x L : u16 v -> Takes (f v) x L -> Takes (pbind be_u16 f) x (Int 2 v :: L). Proof. exact (@Takes_int B 2 v f x L). Qed.
Lemma Takes_u32 {B} v (f : Z -> bparser B) x L : u32 v -> Takes (f v) x L -> Takes (pbind be_u32 f) x (Int 4 v :: L). Proof. exact (@Takes_int B 4 v f x L). Qed.
Lemma Takes_u64 {B} v (f : Z -> bparser B) x L : u64 v -> Takes (f v) x L -> Takes (pbind be_u64 f) x (Int 8 v :: L). Proof. exact (@Takes_int B 8 v f x L). Qed.
Lemma Takes_f32 {B} v (f : Z -> bparser B) x L : u32 v -> Takes (f v) x L -> Takes (pbind be_f32 f) x (Int 4 v :: L). Proof. exact (@Takes_int B 4 v f x L). Qed.
Lemma Takes_f64 {B} v (f : Z -> bparser B) x L : u64 v -> Takes (f v) x L -> Takes (pbind be_f64 f) x (Int 8 v :: L). Proof. exact (@Takes_int B 8 v f x L). Qed.
Lemma Takes_field8 {B} s (P : Z -> Prop) (f : Z -> bparser B) x L : (forall w, u8 w -> P w -> Takes (f w) x L) -> Takes (pbind be_u8 f) x (Field 1 s P :: L). Proof. exact (@Takes_field B 1 s P f x L). Qed.
Lemma Takes_field16 {B} s (P : Z -> Prop) (f : Z -> bparser B) x L : (forall w, u16 w -> P w -> Takes (f w) x L) -> Takes (pbind be_u16 f) x (Field 2 s P :: L). Proof. exact (@Takes_field B 2 s P f x L). Qed.
Lemma Takes_field32 {B} s (P : Z -> Prop) (f : Z -> bparser B) x L : (forall w, u32 w -> P w -> Takes (f w) x L) -> Takes (pbind be_u32 f) x (Field 4 s P :: L). Proof. exact (@Takes_field B 4 s P f x L). Qed.
Lemma Takes_field64 {B} s (P : Z -> Prop) (f : Z -> bparser B) x L : (forall w, u64 w -> P w -> Takes (f w) x L) -> Takes (pbind be_u64 f) x (Field 8 s P :: L). Proof. exact (@Takes_field B 8 s P f x L). Qed.
Lemma sext_back n v : (0 < n)%nat -> - (256 ^ Z.of_nat n / 2) <= v < 256 ^ Z.of_nat n / 2 -> sext (8 * Z.of_nat n) (v mod 256 ^ Z.of_nat n) = v.
Proof.
  intros Hn Hv. unfold sext. replace (2 ^ (8 * Z.of_nat n)) with (256 ^ Z.of_nat n).
  2:{ change 256 with (2 ^ 8). rewrite <- Z.pow_mul_r by lia. reflexivity. }
  replace (2 ^ (8 * Z.of_nat n - 1)) with (256 ^ Z.of_nat n / 2).
  2:{ change 256 with (2 ^ 8). rewrite <- Z.pow_mul_r by lia. change 2 with (2 ^ 1) at 2. rewrite <- Z.pow_sub_r by lia. reflexivity. }
  assert (Hp : 0 < 256 ^ Z.of_nat n) by (apply Z.pow_pos_nonneg; lia). set (M := 256 ^ Z.of_nat n) in *.
  assert (2 * (M / 2) <= M) by (Z.div_mod_to_equations; lia).
  assert (He : M mod 2 = 0). { subst M. destruct n; [lia|]. rewrite Nat2Z.inj_succ, Z.pow_succ_r by lia. change 256 with (2 * 128). rewrite <- !Z.mul_assoc, Z.mul_comm. apply Z_mod_mult. }
  destruct (Z.leb_spec 0 v).
  - rewrite Z.mod_small by lia. destruct (Z.ltb_spec v (M / 2)); lia.
  - replace (v mod M) with (v + M) by (rewrite <- (Z_mod_plus_full v 1 M), Z.mod_small; lia). destruct (Z.ltb_spec (v + M) (M / 2)); Z.div_mod_to_equations; lia.
Qed.
Lemma Takes_signed {B} n v (f : Z -> bparser B) x L : (0 < n)%nat -> - (256 ^ Z.of_nat n / 2) <= v < 256 ^ Z.of_nat n / 2 -> Takes (f v) x L ->
  Takes (pbind (pbind (be_u n) (fun v => pret (sext (8 * Z.of_nat n) v))) f) x (Int n v :: L).
Proof.
  intros Hn Hv H. apply (Takes_some _ (fun w => w = v)); [|now intros a ->]. intros os r B0 [Hl HP]. exists v. split; [reflexivity|].
  unfold pbind at 1. rewrite read_u by exact Hl. unfold pret. rewrite HP, sext_back by assumption. reflexivity.
Qed.
Lemma Takes_i8 {B} v (f : Z -> bparser B) x L : i8 v -> Takes (f v) x L -> Takes (pbind be_i8 f) x (Int 1 v :: L). Proof. exact (@Takes_signed B 1 v f x L ltac:(lia)). Qed.
Lemma Takes_i16 {B} v (f : Z -> bparser B) x L : i16 v -> Takes (f v) x L -> Takes (pbind be_i16 f) x (Int 2 v :: L). Proof. exact (@Takes_signed B 2 v f x L ltac:(lia)). Qed.
Lemma Takes_i32 {B} v (f : Z -> bparser B) x L : i32 v -> Takes (f v) x L -> Takes (pbind be_i32 f) x (Int 4 v :: L). Proof. exact (@Takes_signed B 4 v f x L ltac:(lia)). Qed.
Lemma read_take n l r : zlen l = Z.max 0 n -> take n (l ++ r) = POk r l.
Proof.
  intros H. unfold take. rewrite zlen_app. pose proof (zlen_nonneg r). destruct (Z.ltb_spec (zlen l + zlen r) n); [lia|].
  replace (Z.to_nat n) with (length l) by (unfold zlen in H; lia).
  rewrite firstn_app, Nat.sub_diag, firstn_all, app_nil_r, skipn_app, skipn_all, Nat.sub_diag. reflexivity.
Qed.
Lemma Takes_take {B} n l (f : list Z -> bparser B) x L : zlen l = Z.max 0 n -> Takes (f l) x L -> Takes (pbind (take n) f) x (Raw l :: L).
Proof.
  intros Hl H. apply (Takes_some _ (fun w => w = l)); [|now intros a ->]. intros os r B0 E. cbn [accepts Raw] in E. subst os. exists l. split; [reflexivity|]. now apply read_take.
Qed.
Lemma Takes_fill {B} n k (f : list Z -> bparser B) x L : k = Z.max 0 n -> (forall l, Takes (f l) x L) -> Takes (pbind (take n) f) x (Fill k :: L).
Proof.
  intros -> H. apply (Takes_some _ any); [|now intros a _]. intros os r B0 Hl. exists os. split; [exact I|]. now apply read_take.
Qed.
Lemma Takes_text {B} n s (f : list Z -> bparser B) x L : 0 <= n -> (forall l, sanitize_marking l = s -> Takes (f l) x L) -> Takes (pbind (take n) f) x (Text n s :: L).
Proof.
  intros Hn H. apply (Takes_some _ (fun l => sanitize_marking l = s)); [|exact H]. intros os r B0 [Hl Hs]. exists os. split; [exact Hs|]. apply read_take. lia.
Qed.
Lemma Takes_count {A} (p : bparser A) (L : A -> list item) (C : A -> Prop) n l : (forall a, C a -> Takes p a (L a)) -> Forall C l -> n = zlen l -> Takes (count p n) l (flat_map L l).
Proof.
  intros H HC ->. unfold count, zlen. rewrite Nat2Z.id. induction HC as [|a t Ha Ht IH]; cbn [count_nat length flat_map].
  - now apply Takes_ret.
  - apply Takes_bind with (a := a); [auto|]. rewrite <- app_nil_r. apply Takes_bind with (a := t); [exact IH|]. now apply Takes_ret.
Qed.
Lemma Takes_pmap {A B} (g : A -> B) (p : bparser A) x L : Takes p x L -> Takes (pmap g p) (g x) L.
Proof. intros H os r B0 S. unfold pmap, pbind. rewrite (H os r B0 S). reflexivity. Qed.
Lemma Takes_assoc {A B C} (p : bparser A) (f : A -> bparser B) (g : B -> bparser C) x L : Takes (pbind p (fun a => pbind (f a) g)) x L -> Takes (pbind (pbind p f) g) x L.
Proof. intros H os r B0 S. specialize (H os r B0 S). unfold pbind in *. destruct (p (os ++ r)); auto. Qed.

Create HintDb takes discriminated.
Ltac unw := repeat match goal with H : _ /\ _ |- _ => destruct H end.
Ltac tk_norm := cbn [app]; rewrite <- ?app_assoc; cbn [app].
Ltac tk_range := first [assumption | unfold u8, u16, u32, u64, i8, i16, i32 in *; lia
  | match goal with |- context [zlen ?l] => pose proof (zlen_nonneg l); unfold u8, u16, u32, u64, few8, few16, few32 in *; lia end].
Ltac tk_side := first [assumption | exact I | reflexivity | tk_range | solve [eauto 3]].
Ltac tk_step := match goal with
  | |- Takes (pret _) _ [] => apply Takes_ret
  | |- Takes (pbind be_u8 _) _ (Int 1 _ :: _) => apply Takes_u8; [tk_range|]
  | |- Takes (pbind be_u16 _) _ (Int 2 _ :: _) => apply Takes_u16; [tk_range|]
  | |- Takes (pbind be_u32 _) _ (Int 4 _ :: _) => apply Takes_u32; [tk_range|]
  | |- Takes (pbind be_u64 _) _ (Int 8 _ :: _) => apply Takes_u64; [tk_range|]
  | |- Takes (pbind be_f32 _) _ (Int 4 _ :: _) => apply Takes_f32; [tk_range|]
  | |- Takes (pbind be_f64 _) _ (Int 8 _ :: _) => apply Takes_f64; [tk_range|]
  | |- Takes (pbind be_i8 _) _ (Int 1 _ :: _) => apply Takes_i8; [tk_range|]
  | |- Takes (pbind be_i16 _) _ (Int 2 _ :: _) => apply Takes_i16; [tk_range|]
  | |- Takes (pbind be_i32 _) _ (Int 4 _ :: _) => apply Takes_i32; [tk_range|]
  | |- Takes (pbind be_u8 _) _ (_ :: _) => apply Takes_field8; intros ? ? ?
  | |- Takes (pbind be_u16 _) _ (_ :: _) => apply Takes_field16; intros ? ? ?
  | |- Takes (pbind be_u32 _) _ (_ :: _) => apply Takes_field32; intros ? ? ?
  | |- Takes (pbind be_u64 _) _ (_ :: _) => apply Takes_field64; intros ? ? ?
  | |- Takes (pbind (take _) _) _ (Raw _ :: _) => apply Takes_take; [tk_range|]
  | |- Takes (pbind (take _) _) _ (Fill _ :: _) => apply Takes_fill; [tk_range|intros ?]
  | |- Takes (pbind (count ?p _) _) _ (flat_map ?L ?l ++ _) => eapply (Takes_bind (count p _) l (flat_map L l)); [eapply Takes_count; [solve [eauto 3 with takes]|first [eassumption|tk_side]|tk_side]|]
  | |- Takes (pbind _ _) _ (_ ++ _) => eapply Takes_bind; [solve [eauto 3 with takes]|]
  | |- Takes (let _ := _ in _) _ _ => cbv zeta
  end; cbv beta; tk_norm.
Ltac tk l := apply Takes_nil; unfold l; prj; tk_norm; repeat tk_step; try reflexivity.

Lemma Tk_address x : wf_SimulationAddress x -> Takes p_simulation_address x (L_address x).
Proof. destruct x; unfold wf_SimulationAddress, p_simulation_address; prj; intros; unw. tk L_address. Qed.
Global Hint Resolve Tk_address : takes.
Lemma Tk_entity x : wf_EntityId x -> Takes p_entity_id x (L_entity x).
Proof. destruct x; unfold wf_EntityId, p_entity_id; prj; intros; unw. tk L_entity. Qed.
Global Hint Resolve Tk_entity : takes.
Lemma Tk_event x : wf_EventId x -> Takes p_event_id x (L_event x).
Proof. destruct x as [[]]; unfold wf_EventId, wf_SimulationAddress, p_event_id; prj; intros; unw. apply Takes_nil; unfold L_event, L_address; prj; tk_norm; repeat tk_step; reflexivity. Qed.
Lemma Tk_vector x : wf_VectorF32 x -> Takes p_vec3_f32 x (L_vector x).
Proof. destruct x; unfold wf_VectorF32; prj; intros; unw. eapply Takes_ext; [exact p_vec3_alt|]. tk L_vector. Qed.
Lemma Tk_world x : wf_Location x -> Takes p_location x (L_world x).
Proof. destruct x; unfold wf_Location; prj; intros; unw. eapply Takes_ext; [exact p_location_alt|]. tk L_world. Qed.
Lemma Tk_angles x : wf_Orientation x -> Takes p_orientation x (L_angles x).
Proof. destruct x; unfold wf_Orientation; prj; intros; unw. eapply Takes_ext; [exact p_orientation_alt|]. tk L_angles. Qed.
Lemma Tk_type x : wf_EntityType x -> Takes p_entity_type x (L_type x).
Proof. destruct x; unfold wf_EntityType, p_entity_type; prj; intros; unw. tk L_type. Qed.
Global Hint Resolve Tk_event Tk_vector Tk_world Tk_angles Tk_type : takes.
Lemma Tk_munition x : wf_MunitionDescriptor x -> Takes p_munition_descriptor x (L_munition x).
Proof. destruct x; unfold wf_MunitionDescriptor, p_munition_descriptor; prj; intros; unw. tk L_munition. Qed.
Global Hint Resolve Tk_munition : takes.
Lemma Tk_fti k x : wf_DescriptorRecord x -> descriptor_fire k x -> Takes (p_descriptor_record_fti k) x (L_descriptor x).
Proof.
  unfold p_descriptor_record_fti; destruct x as [et m|et|et ma fo]; cbn [wf_DescriptorRecord descriptor_fire]; intros; unw; try contradiction; apply Takes_nil; cbn [L_descriptor].
  - subst k. change (0 =? 0) with true. cbv iota. fold (L_munition m). rewrite <- app_assoc. repeat tk_step. reflexivity.
  - destruct (Z.eqb_spec k 0); [lia|]. rewrite <- app_assoc. destruct (k =? 1); repeat tk_step; reflexivity.
Qed.
Lemma Tk_dti k x : wf_DescriptorRecord x -> descriptor_detonation k x -> Takes (p_descriptor_record_dti k) x (L_descriptor x).
Proof.
  unfold p_descriptor_record_dti; destruct x as [et m|et|et ma fo]; cbn [wf_DescriptorRecord descriptor_detonation]; intros; unw; try contradiction; apply Takes_nil; cbn [L_descriptor].
  - subst k. change (0 =? 0) with true. cbv iota. fold (L_munition m). rewrite <- app_assoc. repeat tk_step. reflexivity.
  - destruct (Z.eqb_spec k 0); [lia|]. destruct (Z.eqb_spec k 2); [lia|]. rewrite <- app_assoc. destruct (k =? 1); repeat tk_step; reflexivity.
Qed.
Lemma Tk_clock x : wf_ClockTime x -> Takes p_clock_time x (L_clock x).
Proof. destruct x; unfold wf_ClockTime, p_clock_time; prj; intros; unw. tk L_clock. Qed.
Lemma Tk_fixed x : wf_FixedDatum x -> Takes p_fixed_datum x (L_fixed x).
Proof. destruct x; unfold wf_FixedDatum, p_fixed_datum; prj; intros; unw. tk L_fixed. Qed.
Global Hint Resolve Tk_fti Tk_dti Tk_clock Tk_fixed : takes.
Lemma Tk_variable x : wf_VariableDatum x -> datum_legible x -> Takes p_variable_datum x (L_variable x).
Proof.
  destruct x as [i v]; unfold wf_VariableDatum, datum_legible, p_variable_datum; prj; intros; unw. pose proof (zlen_nonneg v). apply Takes_nil. unfold L_variable; prj; tk_norm.
  tk_step. tk_step. eapply Takes_pure; [intros j; apply p_padded_ok; unfold u32 in *; [apply Z.div_pos|]; lia|]. cbn [pl_data pl_padding].
  match goal with H : _ / 8 = zlen v |- _ => rewrite H end. pose proof (pad_to_bound (zlen v) 8 ltac:(lia)).
  apply Takes_take; [lia|]. apply Takes_fill; [unfold pad_to in *; lia|]. intros l. repeat tk_step. reflexivity.
Qed.
Global Hint Resolve Tk_variable : takes.
Lemma Tk_ds f v : Forall wf_FixedDatum f -> Forall wf_VariableDatum v -> datums_legible f v -> Takes p_datum_specification (MkDatumSpecification f v) (L_datums f v).
Proof.
  unfold datums_legible, few32, p_datum_specification; prj; intros; unw. pose proof (zlen_nonneg v). pose proof (zlen_nonneg f).
  apply Takes_nil. unfold L_datums; prj; tk_norm. tk_step. tk_step.
  eapply Takes_bind; [eapply Takes_count; [exact Tk_fixed|assumption|reflexivity]|].
  eapply Takes_bind; [eapply Takes_count with (C := fun d => wf_VariableDatum d /\ datum_legible d); [intros a []; now apply Tk_variable| |reflexivity]|].
  - apply Forall_and; assumption.
  - repeat tk_step. reflexivity.
Qed.
Global Hint Resolve Tk_ds : takes.
Lemma Tk_parameter x : wf_VariableParameter x -> parameter_legible x -> Takes p_variable_parameter x (L_parameter x).
Proof.
  unfold p_variable_parameter; destruct x as [[]|[]|[]|[]|[]|t b]; cbn [wf_VariableParameter parameter_legible]; prj; intros; unw; try contradiction; apply Takes_nil; cbn [L_parameter]; prj; tk_norm; tk_step;
    repeat (match goal with |- context [if ?a =? ?b then _ else _] => change (a =? b) with true || change (a =? b) with false; cbv iota end);
    unfold p_articulated_part, p_attached_part, p_entity_type_vp, p_entity_association.
  - cbv iota. assert (ap_class + ap_metric < 4294967296) by (unfold u32 in *; Z.div_mod_to_equations; lia). repeat tk_step.
    assert (E : Z.land (ap_class + ap_metric) 31 = ap_metric). { change 31 with (Z.ones 5). rewrite Z.land_ones by lia. change (2 ^ 5) with 32. unfold u32 in *. Z.div_mod_to_equations; lia. }
    rewrite E. repeat f_equal; lia.
  - repeat tk_step. reflexivity.
  - repeat tk_step. reflexivity.
  - repeat tk_step. reflexivity.
  - do 5 (match goal with |- context [t =? ?k] => destruct (Z.eqb_spec t k); [lia|] end). repeat tk_step. reflexivity.
Qed.
Global Hint Resolve Tk_parameter : takes.
Lemma Takes_count2 {A} (p : bparser A) (L : A -> list item) (C D : A -> Prop) n l : (forall a, C a -> D a -> Takes p a (L a)) -> Forall C l -> Forall D l -> n = zlen l ->
  Takes (count p n) l (flat_map L l).
Proof. intros H HC HD Hn. eapply Takes_count with (C := fun a => C a /\ D a); [intros a []; auto|now apply Forall_and|exact Hn]. Qed.
Lemma Tk_vps l : Forall wf_VariableParameter l -> Forall parameter_legible l -> Takes (p_vps (zlen l)) l (flat_map L_parameter l).
Proof. intros. eapply Takes_ext; [apply p_vps_eq|]. eapply Takes_count2; eauto using Tk_parameter. Qed.
Global Hint Resolve Tk_vps : takes.
Lemma Tk_beam_data x : wf_BeamData x -> Takes p_beam_data x (L_beam_data x).
Proof. destruct x; unfold wf_BeamData, p_beam_data; prj; intros; unw. tk L_beam_data. Qed.
Lemma Tk_supply x : wf_SupplyQuantity x -> Takes p_supply_quantity x (L_supply x).
Proof. destruct x; unfold wf_SupplyQuantity, p_supply_quantity; prj; intros; unw. tk L_supply. Qed.
Global Hint Resolve Tk_beam_data Tk_supply : takes.
Lemma Tk_takes n l : Forall (fun x => zlen x = n) l -> Takes (count (take n) (zlen l)) l (map Raw l).
Proof.
  intros H. rewrite <- flat_map_raw. eapply Takes_count; [|exact H|reflexivity]. intros a Ha. cbv beta in Ha. apply Takes_nil. 
  intros os r B0 S. rewrite app_nil_r in S. apply shows_one in S. cbn [accepts Raw] in S. subst os. apply read_take. pose proof (zlen_nonneg a). lia.
Qed.
Lemma Tk_ints l : Forall u32 l -> Takes (count be_u32 (zlen l)) l (map (Int 4) l).
Proof.
  intros H. rewrite <- flat_map_int. eapply Takes_count; [|exact H|reflexivity]. intros a Ha os r B0 S. apply shows_one in S. cbn [accepts Int] in S. destruct S as [Hl Hv].
  unfold be_u32. rewrite read_u by exact Hl. rewrite Hv, Z.mod_small; [reflexivity|]. exact Ha.
Qed.
Lemma zlen_concat_len l k : Forall (fun x : list Z => zlen x = k) l -> zlen (concat l) = zlen l * k.
Proof. induction 1 as [|x t Hx _ IH]; [reflexivity|]. cbn [concat]. rewrite zlen_app, zlen_cons. lia. Qed.
Lemma Tk_record_set m x : wf_RecordSet x -> record_set_legible x -> Takes (p_record_set m) x (L_record_set x).
Proof.
  destruct x as [id serial len recs]; unfold wf_RecordSet, record_set_legible, p_record_set; prj; intros; unw. pose proof (zlen_nonneg recs).
  match goal with H : Forall (fun x => zlen x = len) _ |- _ => rename H into Hrec end.
  apply Takes_nil. unfold L_record_set; prj. tk_norm. tk_step. tk_step. tk_step. tk_step. tk_step. 
  match goal with H : recs <> [] -> (?b + 7) / 8 = _ |- _ => rename H into Hb; set (k := (b + 7) / 8) in * end.
  assert (Hk : Forall (fun x => zlen x = k) recs). { destruct recs; [constructor|]. rewrite Hb by discriminate. exact Hrec. }
  assert (Ht : k * zlen recs = zlen (concat recs)) by (rewrite (zlen_concat_len recs k Hk); lia).
  pose proof (zlen_concat_len _ _ Hrec) as Ht2.
  apply Takes_bind with (a := recs); [now apply Tk_takes|].
  eapply Takes_pure; [intros i; rewrite Ht; rewrite parith_ok by (pose proof (zlen_nonneg (concat recs)); lia); reflexivity|].
  eapply Takes_pure; [intros i; apply p_padded_ok; [apply zlen_nonneg|lia]|]. cbn [pl_padding].
  pose proof (pad_to_bound (zlen (concat recs)) 8 ltac:(lia)). apply Takes_fill; [unfold pad_to in *; lia|]. intros l. apply Takes_ret.
  unfold record_set_with_records. f_equal. destruct recs; [symmetry; auto|]. apply Forall_inv in Hrec. unfold u16 in *. rewrite Hrec, Z.mod_small by lia. reflexivity.
Qed.
Lemma Tk_records m l : Forall wf_RecordSet l -> records_legible l -> Takes (p_record_specification m) l (L_records l).
Proof.
  unfold records_legible, few32, p_record_specification; intros; unw. pose proof (zlen_nonneg l). apply Takes_nil. unfold L_records. tk_norm. tk_step.
  eapply Takes_bind; [eapply Takes_count2; eauto using Tk_record_set|]. now apply Takes_ret.
Qed.
Lemma Tk_query l : Forall u32 l -> few32 l -> Takes p_record_query_specification l (L_query l).
Proof.
  unfold few32, p_record_query_specification; intros. pose proof (zlen_nonneg l). apply Takes_nil. unfold L_query. tk_norm. tk_step.
  eapply Takes_bind; [now apply Tk_ints|]. now apply Takes_ret.
Qed.
Global Hint Resolve Tk_records Tk_query Tk_ints : takes.
Ltac tkb l := apply Takes_nil; unfold l, L_pair; prj; tk_norm; repeat tk_step; try reflexivity.
Lemma Tk_service_request x : wf_ServiceRequest x -> few8 (ServiceRequest_supplies x) -> Takes p_service_request_body x (L_service_request x).
Proof. destruct x; unfold wf_ServiceRequest, few8, p_service_request_body; prj; intros; unw. tkb L_service_request. Qed.
Lemma Tk_resupply_offer x : wf_ResupplyOffer x -> few8 (ResupplyOffer_supplies x) -> Takes p_resupply_offer_body x (L_resupply_offer x).
Proof. destruct x; unfold wf_ResupplyOffer, few8, p_resupply_offer_body; prj; intros; unw. tkb L_resupply_offer. Qed.
Lemma Tk_resupply_received x : wf_ResupplyReceived x -> few8 (ResupplyReceived_supplies x) -> Takes p_resupply_received_body x (L_resupply_received x).
Proof. destruct x; unfold wf_ResupplyReceived, few8, p_resupply_received_body; prj; intros; unw. tkb L_resupply_received. Qed.
Lemma Tk_resupply_cancel x : wf_ResupplyCancel x -> Takes p_resupply_cancel_body x (L_resupply_cancel x).
Proof. destruct x; unfold wf_ResupplyCancel, few8, p_resupply_cancel_body; prj; intros; unw. tkb L_resupply_cancel. Qed.
Lemma Tk_repair_complete x : wf_RepairComplete x -> Takes p_repair_complete_body x (L_repair_complete x).
Proof. destruct x; unfold wf_RepairComplete, few8, p_repair_complete_body; prj; intros; unw. tkb L_repair_complete. Qed.
Lemma Tk_repair_response x : wf_RepairResponse x -> Takes p_repair_response_body x (L_repair_response x).
Proof. destruct x; unfold wf_RepairResponse, few8, p_repair_response_body; prj; intros; unw. tkb L_repair_response. Qed.
Lemma Tk_collision x : wf_Collision x -> Takes p_collision_body x (L_collision x).
Proof. destruct x; unfold wf_Collision, few8, p_collision_body; prj; intros; unw. tkb L_collision. Qed.
Lemma Tk_collision_elastic x : wf_CollisionElastic x -> Takes p_collision_elastic_body x (L_collision_elastic x).
Proof. destruct x; unfold wf_CollisionElastic, few8, p_collision_elastic_body; prj; intros; unw. tkb L_collision_elastic. Qed.
Lemma Tk_receiver x : wf_Receiver x -> Takes p_receiver_body x (L_receiver x).
Proof. destruct x; unfold wf_Receiver, few8, p_receiver_body; prj; intros; unw. tkb L_receiver. Qed.
Lemma Tk_designator x : wf_Designator x -> Takes p_designator_body x (L_designator x).
Proof. destruct x; unfold wf_Designator, few8, p_designator_body; prj; intros; unw. tkb L_designator. Qed.
Lemma Tk_acknowledge x : wf_Acknowledge x -> Takes p_acknowledge_body x (L_acknowledge x).
Proof. destruct x; unfold wf_Acknowledge, few8, p_acknowledge_body; prj; intros; unw. tkb L_acknowledge. Qed.
Lemma Tk_acknowledge_r x : wf_AcknowledgeR x -> Takes p_acknowledge_r_body x (L_acknowledge_r x).
Proof. destruct x; unfold wf_AcknowledgeR, few8, p_acknowledge_r_body; prj; intros; unw. tkb L_acknowledge_r. Qed.
Lemma Tk_create_entity x : wf_CreateEntity x -> Takes p_create_entity_body x (L_create_entity x).
Proof. destruct x; unfold wf_CreateEntity, few8, p_create_entity_body; prj; intros; unw. tkb L_create_entity. Qed.
Lemma Tk_create_entity_r x : wf_CreateEntityR x -> Takes p_create_entity_r_body x (L_create_entity_r x).
Proof. destruct x; unfold wf_CreateEntityR, few8, p_create_entity_r_body; prj; intros; unw. tkb L_create_entity_r. Qed.
Lemma Tk_remove_entity x : wf_RemoveEntity x -> Takes p_remove_entity_body x (L_remove_entity x).
Proof. destruct x; unfold wf_RemoveEntity, few8, p_remove_entity_body; prj; intros; unw. tkb L_remove_entity. Qed.
Lemma Tk_remove_entity_r x : wf_RemoveEntityR x -> Takes p_remove_entity_r_body x (L_remove_entity_r x).
Proof. destruct x; unfold wf_RemoveEntityR, few8, p_remove_entity_r_body; prj; intros; unw. tkb L_remove_entity_r. Qed.
Lemma Tk_start_resume x : wf_StartResume x -> Takes p_start_resume_body x (L_start_resume x).
Proof. destruct x; unfold wf_StartResume, few8, p_start_resume_body; prj; intros; unw. tkb L_start_resume. Qed.
Lemma Tk_start_resume_r x : wf_StartResumeR x -> Takes p_start_resume_r_body x (L_start_resume_r x).
Proof. destruct x; unfold wf_StartResumeR, few8, p_start_resume_r_body; prj; intros; unw. tkb L_start_resume_r. Qed.
Lemma Tk_stop_freeze x : wf_StopFreeze x -> Takes p_stop_freeze_body x (L_stop_freeze x).
Proof. destruct x; unfold wf_StopFreeze, few8, p_stop_freeze_body; prj; intros; unw. tkb L_stop_freeze. Qed.
Lemma Tk_stop_freeze_r x : wf_StopFreezeR x -> Takes p_stop_freeze_r_body x (L_stop_freeze_r x).
Proof. destruct x; unfold wf_StopFreezeR, few8, p_stop_freeze_r_body; prj; intros; unw. tkb L_stop_freeze_r. Qed.
Lemma Tk_action_request x : wf_ActionRequest x -> datums_legible (ActionRequest_fixed_datum_records x) (ActionRequest_variable_datum_records x) -> Takes p_action_request_body x (L_action_request x).
Proof. destruct x; unfold wf_ActionRequest, few8, p_action_request_body; prj; intros; unw. tkb L_action_request. Qed.
Lemma Tk_action_request_r x : wf_ActionRequestR x -> datums_legible (ActionRequestR_fixed_datum_records x) (ActionRequestR_variable_datum_records x) -> Takes p_action_request_r_body x (L_action_request_r x).
Proof. destruct x; unfold wf_ActionRequestR, few8, p_action_request_r_body; prj; intros; unw. tkb L_action_request_r. Qed.
Lemma Tk_action_response x : wf_ActionResponse x -> datums_legible (ActionResponse_fixed_datum_records x) (ActionResponse_variable_datum_records x) -> Takes p_action_response_body x (L_action_response x).
Proof. destruct x; unfold wf_ActionResponse, few8, p_action_response_body; prj; intros; unw. tkb L_action_response. Qed.
Lemma Tk_data x : wf_Data x -> datums_legible (Data_fixed_datum_records x) (Data_variable_datum_records x) -> Takes p_data_body x (L_data x).
Proof. destruct x; unfold wf_Data, few8, p_data_body; prj; intros; unw. tkb L_data. Qed.
Lemma Tk_data_r x : wf_DataR x -> datums_legible (DataR_fixed_datum_records x) (DataR_variable_datum_records x) -> Takes p_data_r_body x (L_data_r x).
Proof. destruct x; unfold wf_DataR, few8, p_data_r_body; prj; intros; unw. tkb L_data_r. Qed.
Lemma Tk_set_data x : wf_SetData x -> datums_legible (SetData_fixed_datum_records x) (SetData_variable_datum_records x) -> Takes p_set_data_body x (L_set_data x).
Proof. destruct x; unfold wf_SetData, few8, p_set_data_body; prj; intros; unw. tkb L_set_data. Qed.
Lemma Tk_set_data_r x : wf_SetDataR x -> datums_legible (SetDataR_fixed_datum_records x) (SetDataR_variable_datum_records x) -> Takes p_set_data_r_body x (L_set_data_r x).
Proof. destruct x; unfold wf_SetDataR, few8, p_set_data_r_body; prj; intros; unw. tkb L_set_data_r. Qed.
Lemma Tk_event_report x : wf_EventReport x -> datums_legible (EventReport_fixed_datum_records x) (EventReport_variable_datum_records x) -> Takes p_event_report_body x (L_event_report x).
Proof. destruct x; unfold wf_EventReport, few8, p_event_report_body; prj; intros; unw. tkb L_event_report. Qed.
Lemma Tk_event_report_r x : wf_EventReportR x -> datums_legible (EventReportR_fixed_datum_records x) (EventReportR_variable_datum_records x) -> Takes p_event_report_r_body x (L_event_report_r x).
Proof. destruct x; unfold wf_EventReportR, few8, p_event_report_r_body; prj; intros; unw. tkb L_event_report_r. Qed.
Global Hint Resolve Tk_service_request Tk_resupply_offer Tk_resupply_received Tk_resupply_cancel Tk_repair_complete Tk_repair_response Tk_collision Tk_collision_elastic Tk_receiver Tk_designator Tk_acknowledge Tk_acknowledge_r Tk_create_entity Tk_create_entity_r Tk_remove_entity Tk_remove_entity_r Tk_start_resume Tk_start_resume_r Tk_stop_freeze Tk_stop_freeze_r Tk_action_request Tk_action_request_r Tk_action_response Tk_data Tk_data_r Tk_set_data Tk_set_data_r Tk_event_report Tk_event_report_r : takes.
Lemma Tk_action_response_r x : wf_ActionResponse x -> datums_legible (ActionResponse_fixed_datum_records x) (ActionResponse_variable_datum_records x) -> Takes p_action_response_r_body x (L_action_response x).
Proof. exact (Tk_action_response x). Qed.
Lemma read_fixeds n : forall os r, length os = (8 * n)%nat -> exists l, count_nat p_fixed_datum n (os ++ r) = POk r l.
Proof.
  induction n as [|n IH]; intros os r Hl.
  - destruct os; [|cbn in Hl; lia]. exists []. reflexivity.
  - rewrite <- (firstn_skipn 4 os). set (a := firstn 4 os). set (o2 := skipn 4 os). rewrite <- (firstn_skipn 4 o2). set (b := firstn 4 o2). set (o3 := skipn 4 o2).
    assert (La : length a = 4%nat) by (subst a; rewrite firstn_length; lia). assert (L2 : length o2 = (8 * n + 4)%nat) by (subst o2; rewrite skipn_length; lia).
    assert (Lb : length b = 4%nat) by (subst b; rewrite firstn_length; lia). assert (L3 : length o3 = (8 * n)%nat) by (subst o3; rewrite skipn_length; lia).
    destruct (IH o3 r L3) as [l E]. exists (MkFixedDatum (be_val a) (be_val b) :: l). cbn [count_nat]. unfold p_fixed_datum at 1, pbind, be_u32. rewrite <- !app_assoc.
    rewrite (read_u 4 a) by exact La. rewrite (read_u 4 b) by exact Lb. unfold pret. fold (@count_nat Z FixedDatum). rewrite E. reflexivity.
Qed.
Lemma Tk_only_variable {A} (f : list VariableDatum -> A) v : Forall wf_VariableDatum v -> datums_legible [] v ->
  Takes (pbind p_datum_specification (fun d => pret (f (ds_variable d)))) (f v) (Only_variable (zlen v) :: flat_map L_variable v).
Proof.
  unfold datums_legible, few32. intros Hw (_ & Hn & Hv) os r B0 H. apply (shows_app_inv [_]) in H. destruct H as (u & rest & -> & Hu & Hr).
  apply bytes_app_inv in B0. destruct B0 as [Bu Br]. apply shows_one in Hu. cbn [accepts Only_variable] in Hu. destruct Hu as (a & b & s & -> & [La _] & [Lb Eb] & Hs).
  apply bytes_app_inv in Bu. destruct Bu as [Ba Bb]. pose proof (be_val_bound a Ba) as Hp. pose proof (zlen_nonneg v).
  rewrite Z.mod_small in Eb by (change (256 ^ Z.of_nat 4) with 4294967296; lia).
  unfold pbind, p_datum_specification, be_u32. unfold pbind. rewrite <- !app_assoc. rewrite (read_u 4 a), (read_u 4 b) by assumption.
  destruct (read_fixeds (Z.to_nat (be_val a)) s (rest ++ r)) as [l E]. { unfold zlen in Hs. lia. }
  unfold count at 1. rewrite E, Eb.
  assert (T : Takes (count p_variable_datum (zlen v)) v (flat_map L_variable v)) by (eapply Takes_count2; eauto using Tk_variable).
  rewrite (T rest r Br Hr). reflexivity.
Qed.
Lemma Tk_comment x : wf_Comment x -> datums_legible [] (Comment_variable_datum_records x) -> Takes p_comment_body x (L_comment x).
Proof.
  destruct x; unfold wf_Comment, p_comment_body, L_comment, L_pair; prj; intros; unw. tk_norm. repeat tk_step.
  refine (Tk_only_variable (fun v => MkComment _ _ v) _ _ _); assumption.
Qed.
Lemma Tk_comment_r x : wf_CommentR x -> datums_legible [] (CommentR_variable_datum_records x) -> Takes p_comment_r_body x (L_comment_r x).
Proof.
  destruct x; unfold wf_CommentR, p_comment_r_body, L_comment_r, L_pair; prj; intros; unw. tk_norm. repeat tk_step.
  refine (Tk_only_variable (fun v => MkCommentR _ _ v) _ _ _); assumption.
Qed.
Lemma Tk_data_query x : wf_DataQuery x -> few32 (DataQuery_fixed_datum_records x) -> few32 (DataQuery_variable_datum_records x) -> Takes p_data_query_body x (L_data_query x).
Proof. destruct x; unfold wf_DataQuery, p_data_query_body; prj; intros; unw. unfold L_data_query, L_ids. tkb L_data_query. Qed.
Lemma Tk_data_query_r x : wf_DataQueryR x -> few32 (DataQueryR_fixed_datum_records x) -> few32 (DataQueryR_variable_datum_records x) -> Takes p_data_query_r_body x (L_data_query_r x).
Proof. destruct x; unfold wf_DataQueryR, p_data_query_r_body; prj; intros; unw. unfold L_data_query_r, L_ids. tkb L_data_query_r. Qed.
Lemma Tk_record_query_r x : wf_RecordQueryR x -> few32 (RecordQueryR_record_query_specification x) -> Takes p_record_query_r_body x (L_record_query_r x).
Proof. destruct x; unfold wf_RecordQueryR, p_record_query_r_body; prj; intros; unw. tkb L_record_query_r.
  match goal with |- Takes _ _ (Int 4 (zlen ?l) :: map (Int 4) ?l ++ []) => change (Int 4 (zlen l) :: map (Int 4) l ++ []) with (L_query l ++ []) end.
  repeat tk_step. reflexivity. Qed.
Lemma Tk_set_record_r m x : wf_SetRecordR x -> records_legible (SetRecordR_record_specification x) -> Takes (p_set_record_r_body m) x (L_set_record_r x).
Proof. destruct x; unfold wf_SetRecordR, p_set_record_r_body; prj; intros; unw. tkb L_set_record_r. Qed.
Lemma Tk_transfer_ownership m x : wf_TransferOwnership x -> records_legible (TransferOwnership_record_specification x) -> Takes (p_transfer_ownership_body m) x (L_transfer_ownership x).
Proof. destruct x; unfold wf_TransferOwnership, p_transfer_ownership_body; prj; intros; unw. tkb L_transfer_ownership. Qed.
Lemma Tk_appearance t x : wf_EntityAppearance x -> appearance_of t x -> Takes (p_entity_appearance (et_kind t) (et_domain t)) x [Int 4 (ea_word x)].
Proof. destruct x as [k w]; unfold wf_EntityAppearance, appearance_of, p_entity_appearance; prj; intros H E. apply Takes_nil. tk_norm. cbn [ea_kind] in E. repeat tk_step. now rewrite E. Qed.
Lemma Tk_fire k x : wf_Fire x -> descriptor_fire k (Fire_descriptor x) -> Takes (p_fire_body k) x (L_fire x).
Proof. destruct x; unfold wf_Fire, p_fire_body; prj; intros; unw. tkb L_fire. Qed.
Lemma Tk_detonation k x : wf_Detonation x -> descriptor_detonation k (Detonation_descriptor x) -> parameters_legible (Detonation_variable_parameters x) -> Takes (p_detonation_body k) x (L_detonation x).
Proof. destruct x; unfold wf_Detonation, p_detonation_body, parameters_legible; prj; intros; unw. tkb L_detonation. Qed.
Lemma Tk_entity_state_update x : wf_EntityStateUpdate x -> parameters_legible (EntityStateUpdate_variable_parameters x) -> ea_kind (EntityStateUpdate_appearance x) = appearance_kind 0 0 ->
  Takes p_entity_state_update_body x (L_entity_state_update x).
Proof.
  destruct x as [? ? ? ? [k w] ?]; unfold wf_EntityStateUpdate, p_entity_state_update_body, parameters_legible, wf_EntityAppearance, p_entity_appearance; cbn [ea_kind]; prj; intros; unw. apply Takes_nil. unfold L_entity_state_update. prj.
  cbn [ea_word]. tk_norm. repeat tk_step. apply Takes_assoc. cbn [ea_word] in *. repeat tk_step. eapply Takes_pure; [reflexivity|]. repeat tk_step. congruence.
Qed.
Lemma Tk_propulsion x : wf_Propulsion x -> Takes p_propulsion x (L_propulsion x).
Proof. destruct x; unfold wf_Propulsion, p_propulsion; prj; intros; unw. tk L_propulsion. Qed.
Lemma Tk_nozzle x : wf_Nozzle x -> Takes p_nozzle x (L_nozzle x).
Proof. destruct x; unfold wf_Nozzle, p_nozzle; prj; intros; unw. tk L_nozzle. Qed.
Global Hint Resolve Tk_propulsion Tk_nozzle : takes.
Lemma Tk_sees x : wf_Sees x -> few16 (Sees_propulsion_systems x) -> few16 (Sees_vectoring_nozzle_systems x) -> Takes p_sees_body x (L_sees x).
Proof. destruct x; unfold wf_Sees, p_sees_body; prj; intros; unw. tkb L_sees. Qed.

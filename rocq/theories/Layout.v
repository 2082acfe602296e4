(** * Writers and the wire layout: the writers put exactly the octets of the layout tables *)
From Coq Require Import ZArith List Lia Bool.
From Verif Require Import Base Utf8 DisCommon DisLists DisHeader DisSimman DisLogistics DisWarfare DisEntity DisEmission DisRadio DisIff DisPdu DisPacket SpecLayout.
Import ListNotations. Open Scope Z_scope.

Lemma octets_app a b : octets (a ++ b) = octets a ++ octets b.
Proof. unfold octets. now rewrite map_app, concat_app. Qed.
Lemma octets_cons x l : octets (x :: l) = sent x ++ octets l. Proof. reflexivity. Qed.
Lemma octets_nil : octets [] = []. Proof. reflexivity. Qed.
Lemma octets_flat_map {A} (f : A -> list item) l : octets (flat_map f l) = flat_map (fun x => octets (f x)) l.
Proof. induction l as [|x t IH]; [reflexivity|]. cbn [flat_map]. now rewrite octets_app, IH. Qed.
Lemma octets_map {A} (f : A -> item) l : octets (map f l) = flat_map (fun x => sent (f x)) l.
Proof. induction l as [|x t IH]; [reflexivity|]. cbn [map flat_map]. now rewrite octets_cons, IH. Qed.

(** [w], if it returns at all, wrote exactly [os]; and its result satisfies [Q] *)
Definition Lays {R} (w : W R) (os : list Z) : Prop := forall bs a, w = WOk bs a -> bs = os.
Lemma Lays_bind {R S} (w : W R) (f : R -> W S) o1 o2 : Lays w o1 -> (forall a, Lays (f a) o2) -> Lays (wbind w f) (o1 ++ o2).
Proof.
  intros H1 H2 bs a E. unfold wbind in E. destruct w as [b1 r|]; [|discriminate].
  destruct (f r) as [b2 s|] eqn:Ef; [|discriminate]. injection E as <- <-.
  now rewrite (H1 b1 r eq_refl), (H2 r b2 s Ef).
Qed.
(** the same when the continuation needs to know the result *)
Lemma Lays_bind_val {R S} (w : W R) (f : R -> W S) o1 o2 (Q : R -> Prop) :
  (forall bs a, w = WOk bs a -> bs = o1 /\ Q a) -> (forall a, Q a -> Lays (f a) o2) -> Lays (wbind w f) (o1 ++ o2).
Proof.
  intros H1 H2 bs a E. unfold wbind in E. destruct w as [b1 r|]; [|discriminate].
  destruct (f r) as [b2 s|] eqn:Ef; [|discriminate]. injection E as <- <-.
  destruct (H1 b1 r eq_refl) as [-> HQ]. now rewrite (H2 r HQ b2 s Ef).
Qed.
Lemma Lays_ret {R} (r : R) : Lays (wret r) []. Proof. intros bs a E. injection E as <- _. reflexivity. Qed.
Lemma Lays_panic {R} os : Lays (@wpanic Z R) os. Proof. intros bs a E. discriminate. Qed.
Lemma Lays_put n v : Lays (put n v) (be n v). Proof. intros bs a E. injection E as <- _. reflexivity. Qed.
Lemma Lays_slice l : Lays (put_slice l) l. Proof. intros bs a E. injection E as <- _. reflexivity. Qed.
Lemma Lays_bytes v n : Lays (put_bytes v n) (repeat v (Z.to_nat n)). Proof. intros bs a E. injection E as <- _. reflexivity. Qed.
Lemma Lays_arith m r : Lays (@arith Z m r) [].
Proof. intros bs a. unfold arith. destruct (_ && _); [|destruct m]; intros E; try discriminate; injection E as <- _; reflexivity. Qed.
Lemma Lays_add16 m a b : Lays (@add16 Z m a b) []. Proof. apply Lays_arith. Qed.
Lemma Lays_mul16 m a b : Lays (@mul16 Z m a b) []. Proof. apply Lays_arith. Qed.
Lemma arith_val m r bs a : @arith Z m r = WOk bs a -> bs = [] /\ a mod 65536 = r mod 65536 /\ 0 <= a < 65536.
Proof.
  unfold arith. destruct (Z.leb_spec 0 r); destruct (Z.ltb_spec r 65536); cbn [andb];
    try (destruct m); intros E; try discriminate; injection E as <- <-;
    (split; [reflexivity|]; split; [rewrite ?Zmod_mod; reflexivity|]; first [lia|apply Z.mod_pos_bound; lia]).
Qed.
Lemma add32_val m x y bs a : @add32 Z m x y = WOk bs a -> bs = [] /\ a mod 4294967296 = (x + y) mod 4294967296.
Proof.
  unfold add32. cbv zeta. destruct (Z.leb_spec 0 (x+y)); destruct (Z.ltb_spec (x+y) 4294967296); cbn [andb];
    try (destruct m); intros E; try discriminate; injection E as <- <-; rewrite ?Zmod_mod; split; reflexivity.
Qed.
Lemma Lays_padded d n : Lays (w_padded d n) [].
Proof. intros bs a. unfold w_padded. destruct length_padded_to_num; intros E; [injection E as <- _; reflexivity|discriminate]. Qed.
Lemma Lays_wsum {A} m (w : A -> W Z) (g : A -> list Z) l : Forall (fun x => Lays (w x) (g x)) l -> forall acc, Lays (wsum m w l acc) (flat_map g l).
Proof.
  induction 1 as [|x t Hx _ IH]; intros acc; cbn [wsum flat_map]; [apply Lays_ret|].
  apply Lays_bind; [exact Hx|]. intros a. rewrite <- (app_nil_l (flat_map g t)).
  apply Lays_bind; [apply Lays_add16|]. intros b. apply IH.
Qed.
Lemma Lays_sum {A} m (w : A -> W Z) (g : A -> list Z) l : (forall x, Lays (w x) (g x)) -> Lays (wmap_sum m w l) (flat_map g l).
Proof. intros H. apply Lays_wsum. apply Forall_forall. auto. Qed.
Lemma Lays_sum_F {A} m (w : A -> W Z) (g : A -> list Z) l : Forall (fun x => Lays (w x) (g x)) l -> Lays (wmap_sum m w l) (flat_map g l).
Proof. intros H. now apply Lays_wsum. Qed.
Lemma Lays_iter {A} (w : A -> W unit) (g : A -> list Z) l : (forall x, Lays (w x) (g x)) -> Lays (witer w l) (flat_map g l).
Proof. intros H. induction l as [|x t IH]; cbn [witer flat_map]; [apply Lays_ret|]. apply Lays_bind; auto. Qed.
Lemma Lays_conv {R} (w : W R) os os' : Lays w os -> os = os' -> Lays w os'. Proof. now intros H <-. Qed.
Lemma be_same n v v' : v mod 256 ^ Z.of_nat n = v' mod 256 ^ Z.of_nat n -> be n v = be n v'.
Proof. intros E. rewrite <- (be_mod n v), <- (be_mod n v'). now rewrite E. Qed.
Lemma be1_mod v : be 1 (v mod 256) = be 1 v. Proof. exact (be_mod 1 v). Qed.
Lemma be2_mod v : be 2 (v mod 65536) = be 2 v. Proof. exact (be_mod 2 v). Qed.
Lemma be4_mod v : be 4 (v mod 4294967296) = be 4 v. Proof. exact (be_mod 4 v). Qed.

Create HintDb lay.
Global Hint Resolve Lays_ret Lays_panic Lays_put Lays_slice Lays_bytes Lays_add16 Lays_mul16 Lays_padded : lay.
Ltac lay1 := match goal with
  | |- Lays (wbind _ _) _ => eapply Lays_bind; [|intros ?]
  | |- Lays (wmap_sum _ _ _) _ => first [solve [eauto with lay]|eapply Lays_sum; intros ?; eapply Lays_conv; [solve [eauto with lay]|reflexivity]]
  | |- Lays (put_u8 _) _ => apply (Lays_put 1) | |- Lays (put_u16 _) _ => apply (Lays_put 2) | |- Lays (put_u32 _) _ => apply (Lays_put 4)
  | |- Lays (put_u64 _) _ => apply (Lays_put 8) | |- Lays (put_f32 _) _ => apply (Lays_put 4) | |- Lays (put_f64 _) _ => apply (Lays_put 8)
  | |- Lays (put_i8 _) _ => apply (Lays_put 1) | |- Lays (put_i16 _) _ => apply (Lays_put 2) | |- Lays (put_i32 _) _ => apply (Lays_put 4)
  | |- Lays _ _ => solve [eauto with lay] end.
Ltac oct1 := match goal with
  | |- context [octets (?a ++ ?b)] => rewrite (octets_app a b)
  | |- context [octets (?a :: ?b)] => rewrite (octets_cons a b)
  | |- context [octets []] => rewrite octets_nil
  | |- context [octets (flat_map ?f ?l)] => rewrite (octets_flat_map f l)
  | |- context [octets (map ?f ?l)] => rewrite (octets_map f l) end.
Ltac bem := match goal with
  | |- context [be 1 (?v mod 256)] => rewrite (be1_mod v)
  | |- context [be 2 (?v mod 65536)] => rewrite (be2_mod v)
  | |- context [be 4 (?v mod 4294967296)] => rewrite (be4_mod v) end.
Ltac oct := cbn [app]; repeat oct1;
  cbn [sent Int Pad Ignored Raw Fill Text]; rewrite <- ?app_assoc; cbn [app]; rewrite ?app_nil_r, <- ?app_assoc; repeat bem; cbn [app].
Ltac lays d := intros; unfold d; eapply Lays_conv; [repeat lay1|].

Lemma Lays_address a : Lays (w_simulation_address a) (octets (L_address a)).
Proof. lays w_simulation_address. unfold L_address. oct. reflexivity. Qed.
Global Hint Resolve Lays_address : lay.
Lemma Lays_entity a : Lays (w_entity_id a) (octets (L_entity a)).
Proof. lays w_entity_id. unfold L_entity. oct. reflexivity. Qed.
Global Hint Resolve Lays_entity : lay.
Lemma shiftl_add_lor a b k : 0 <= k -> 0 <= b < 2 ^ k -> Z.shiftl a k + b = Z.lor (Z.shiftl a k) b.
Proof.
  intros Hk Hb. assert (E : Z.land (Z.shiftl a k) b = 0).
  { apply Z.bits_inj'. intros n Hn. rewrite Z.land_spec, Z.bits_0. destruct (Z.lt_ge_cases n k) as [H|H].
    - rewrite Z.shiftl_spec_low by lia. reflexivity.
    - rewrite <- (Z.mod_small b (2 ^ k)) by lia. rewrite Z.mod_pow2_bits_high by lia. apply andb_false_r. }
  rewrite Z.add_nocarry_lxor by exact E. now rewrite Z.lxor_lor.
Qed.
Lemma Lays_event x : Lays (w_event_id x) (octets (L_event x)).
Proof. lays w_event_id. unfold L_event. oct. reflexivity. Qed.
Global Hint Resolve Lays_event : lay.
Lemma Lays_vector x : Lays (w_vector_f32 x) (octets (L_vector x)).
Proof. lays w_vector_f32. unfold L_vector. oct. reflexivity. Qed.
Global Hint Resolve Lays_vector : lay.
Lemma Lays_world x : Lays (w_location x) (octets (L_world x)).
Proof. lays w_location. unfold L_world. oct. reflexivity. Qed.
Global Hint Resolve Lays_world : lay.
Lemma Lays_angles x : Lays (w_orientation x) (octets (L_angles x)).
Proof. lays w_orientation. unfold L_angles. oct. reflexivity. Qed.
Global Hint Resolve Lays_angles : lay.
Lemma Lays_type x : Lays (w_entity_type x) (octets (L_type x)).
Proof. lays w_entity_type. unfold L_type. oct. reflexivity. Qed.
Global Hint Resolve Lays_type : lay.
Lemma Lays_munition x : Lays (w_munition_descriptor x) (octets [Int 2 (md_warhead x); Int 2 (md_fuse x); Int 2 (md_quantity x); Int 2 (md_rate x)]).
Proof. lays w_munition_descriptor. oct. reflexivity. Qed.
Global Hint Resolve Lays_munition : lay.
Lemma Lays_descriptor x : Lays (w_descriptor_record x) (octets (L_descriptor x)).
Proof. destruct x; lays w_descriptor_record; unfold L_descriptor; oct; reflexivity. Qed.
Global Hint Resolve Lays_descriptor : lay.
Lemma Lays_clock x : Lays (w_clock_time x) (octets (L_clock x)).
Proof. lays w_clock_time. unfold L_clock. oct. reflexivity. Qed.
Global Hint Resolve Lays_clock : lay.
Lemma Lays_fixed x : Lays (w_fixed_datum x) (octets (L_fixed x)).
Proof. lays w_fixed_datum. unfold L_fixed. oct. reflexivity. Qed.
Global Hint Resolve Lays_fixed : lay.
Lemma w_padded_val d n bs a : w_padded d n = WOk bs a -> bs = [] /\ length_padded_to_num d n = Some a.
Proof. unfold w_padded. destruct length_padded_to_num; intros E; [injection E as <- <-; auto|discriminate]. Qed.
Lemma Lays_padded_bind {S} d n (f : PaddedRecordLengths -> W S) os : 0 <= d -> 0 < n ->
  Lays (f (MkPadded d (pad_to d n) (d + pad_to d n))) os -> Lays (wbind (w_padded d n) f) os.
Proof. intros Hd Hn H. rewrite w_padded_ok by assumption. intros bs a E'. unfold wbind in E'. destruct (f (MkPadded d (pad_to d n) (d + pad_to d n))) as [b r|]; [|discriminate E']. injection E' as <- <-. exact (H b r eq_refl). Qed.
Lemma Lays_variable m x : zlen (vd_value x) mod 8 = 0 -> Lays (w_variable_datum m x) (octets (L_variable x)).
Proof.
  intros H. pose proof (zlen_nonneg (vd_value x)). unfold w_variable_datum. cbv zeta. apply Lays_padded_bind; [lia|lia|].
  eapply Lays_conv; [repeat lay1|]. cbn [pl_padding pl_record]. unfold L_variable. cbv zeta. oct.
  replace (pad_to (zlen (vd_value x) * 8) 64) with 0.
  - replace ((- zlen (vd_value x)) mod 8) with 0 by (symmetry; Z.div_mod_to_equations; lia).
    rewrite (Z.mul_comm 8). cbn. rewrite ?app_nil_r. reflexivity.
  - unfold pad_to. symmetry. Z.div_mod_to_equations; lia.
Qed.
Lemma Lays_variables m l : whole_words l -> Lays (wmap_sum m (w_variable_datum m) l) (octets (flat_map L_variable l)).
Proof. intros H. rewrite octets_flat_map. apply Lays_sum_F. revert H. apply Forall_impl. intros. now apply Lays_variable. Qed.
Global Hint Resolve Lays_variables : lay.
Lemma Lays_u32_elt x : Lays (w_u32_elt x) (be 4 x).
Proof. lays w_u32_elt. apply app_nil_r. Qed.
Global Hint Resolve Lays_u32_elt : lay.
Lemma Lays_articulated m x : Lays (w_articulated_part m x) (octets [Int 1 (ap_change x); Int 2 (ap_attachment x); Int 4 (ap_class x + ap_metric x); Int 4 (ap_value x); Pad 4]).
Proof.
  unfold w_articulated_part. eapply Lays_conv.
  - lay1; [repeat lay1|]. lay1; [repeat lay1|].
    eapply Lays_bind_val with (o2 := be 4 (ap_class x + ap_metric x) ++ be 4 (ap_value x) ++ be 4 0 ++ []); [intros bs v; apply add32_val|].
    intros v Hv. cbv beta in Hv. rewrite (be_same 4 (ap_class x + ap_metric x) v) by (symmetry; exact Hv). repeat lay1.
  - oct. reflexivity.
Qed.
Global Hint Resolve Lays_articulated : lay.
Lemma Lays_parameter m x : Lays (w_variable_parameter m x) (octets (L_parameter x)).
Proof.
  destruct x; unfold w_variable_parameter, w_attached_part, w_separation, w_entity_type_parameter, w_entity_association; (eapply Lays_conv; [repeat lay1|]);
    unfold L_parameter; oct; try reflexivity.
Qed.
Global Hint Resolve Lays_parameter : lay.
Lemma Lays_beam_data x : Lays (w_beam_data x) (octets (L_beam_data x)).
Proof. lays w_beam_data. unfold L_beam_data. oct. reflexivity. Qed.
Global Hint Resolve Lays_beam_data : lay.
Lemma Lays_supply x : Lays (w_supply_quantity x) (octets (L_supply x)).
Proof. lays w_supply_quantity. unfold L_supply. oct. reflexivity. Qed.
Global Hint Resolve Lays_supply : lay.
Lemma concat_flat_map {A} (l : list (list A)) : concat l = flat_map (fun x => x) l.
Proof. rewrite flat_map_concat_map, map_id. reflexivity. Qed.
Lemma zlen_concat (l : list (list Z)) : zlen (concat l) = zsum (map zlen l).
Proof. induction l as [|x t IH]; [reflexivity|]. cbn [concat map zsum]. rewrite zlen_app, IH. reflexivity. Qed.
Lemma Lays_record_set m x : Lays (w_record_set m x) (octets (L_record_set x)).
Proof.
  unfold w_record_set. cbv zeta. eapply Lays_conv.
  { do 3 (lay1; [repeat lay1|]).
    eapply Lays_bind_val with (o2 := be 2 (8 * rs_length_bytes x) ++ be 2 (zlen (rs_records x)) ++ flat_map (fun x => x) (rs_records x) ++
      repeat 0 (Z.to_nat ((- zlen (concat (rs_records x))) mod 8))); [intros ? ?; apply arith_val|].
    intros bits (Ha & _). cbv beta in Ha.
    eapply Lays_conv; [do 2 (lay1; [repeat lay1|]); lay1; [apply Lays_iter with (g := fun x => x); intros; apply Lays_slice|];
      apply Lays_padded_bind; [apply Z.mod_pos_bound; lia|lia|]; repeat lay1|].
    cbn [pl_padding]. rewrite ?app_nil_r. rewrite be2_mod. f_equal; [apply be_same; rewrite (Z.mul_comm 8); exact Ha|]. do 3 f_equal.
    unfold pad_to. rewrite zlen_concat. f_equal. set (z := zsum _). Z.div_mod_to_equations; lia. }
  unfold L_record_set. oct. reflexivity.
Qed.
Global Hint Resolve Lays_record_set : lay.
Lemma Lays_records m x : Lays (w_record_specification m x) (octets (L_records x)).
Proof. lays w_record_specification. unfold L_records. oct. reflexivity. Qed.
Global Hint Resolve Lays_records : lay.
Lemma Lays_query m x : Lays (w_record_query_specification m x) (octets ([Int 4 (zlen x)] ++ map (Int 4) x)).
Proof. lays w_record_query_specification. oct. reflexivity. Qed.
Global Hint Resolve Lays_query : lay.
Lemma Lays_service_request m x : Lays (w_service_request m x) (octets (L_service_request x)).
Proof. lays w_service_request. unfold L_service_request, L_pair. oct. reflexivity. Qed.
Global Hint Resolve Lays_service_request : lay.
Lemma Lays_resupply_offer m x : Lays (w_resupply_offer m x) (octets (L_resupply_offer x)).
Proof. lays w_resupply_offer. unfold L_resupply_offer, L_pair. oct. reflexivity. Qed.
Global Hint Resolve Lays_resupply_offer : lay.
Lemma Lays_resupply_received m x : Lays (w_resupply_received m x) (octets (L_resupply_received x)).
Proof. lays w_resupply_received. unfold L_resupply_received, L_pair. oct. reflexivity. Qed.
Global Hint Resolve Lays_resupply_received : lay.
Lemma Lays_resupply_cancel m x : Lays (w_resupply_cancel m x) (octets (L_resupply_cancel x)).
Proof. lays w_resupply_cancel. unfold L_resupply_cancel, L_pair. oct. reflexivity. Qed.
Global Hint Resolve Lays_resupply_cancel : lay.
Lemma Lays_repair_complete m x : Lays (w_repair_complete m x) (octets (L_repair_complete x)).
Proof. lays w_repair_complete. unfold L_repair_complete, L_pair. oct. reflexivity. Qed.
Global Hint Resolve Lays_repair_complete : lay.
Lemma Lays_repair_response m x : Lays (w_repair_response m x) (octets (L_repair_response x)).
Proof. lays w_repair_response. unfold L_repair_response, L_pair. oct. reflexivity. Qed.
Global Hint Resolve Lays_repair_response : lay.
Lemma Lays_collision m x : Lays (w_collision m x) (octets (L_collision x)).
Proof. lays w_collision. unfold L_collision, L_pair. oct. reflexivity. Qed.
Global Hint Resolve Lays_collision : lay.
Lemma Lays_collision_elastic m x : Lays (w_collision_elastic m x) (octets (L_collision_elastic x)).
Proof. lays w_collision_elastic. unfold L_collision_elastic, L_pair. oct. reflexivity. Qed.
Global Hint Resolve Lays_collision_elastic : lay.
Lemma Lays_receiver m x : Lays (w_receiver m x) (octets (L_receiver x)).
Proof. lays w_receiver. unfold L_receiver, L_pair. oct. reflexivity. Qed.
Global Hint Resolve Lays_receiver : lay.
Lemma Lays_designator m x : Lays (w_designator m x) (octets (L_designator x)).
Proof. lays w_designator. unfold L_designator, L_pair. oct. reflexivity. Qed.
Global Hint Resolve Lays_designator : lay.
Lemma Lays_transfer_ownership m x : Lays (w_transfer_ownership m x) (octets (L_transfer_ownership x)).
Proof. lays w_transfer_ownership. unfold L_transfer_ownership, L_pair. oct. reflexivity. Qed.
Global Hint Resolve Lays_transfer_ownership : lay.
Lemma Lays_acknowledge m x : Lays (w_acknowledge m x) (octets (L_acknowledge x)).
Proof. lays w_acknowledge. unfold L_acknowledge, L_pair. oct. reflexivity. Qed.
Global Hint Resolve Lays_acknowledge : lay.
Lemma Lays_acknowledge_r m x : Lays (w_acknowledge_r m x) (octets (L_acknowledge_r x)).
Proof. lays w_acknowledge_r. unfold L_acknowledge_r, L_pair. oct. reflexivity. Qed.
Global Hint Resolve Lays_acknowledge_r : lay.
Lemma Lays_create_entity m x : Lays (w_create_entity m x) (octets (L_create_entity x)).
Proof. lays w_create_entity. unfold L_create_entity, L_pair. oct. reflexivity. Qed.
Global Hint Resolve Lays_create_entity : lay.
Lemma Lays_create_entity_r m x : Lays (w_create_entity_r m x) (octets (L_create_entity_r x)).
Proof. lays w_create_entity_r. unfold L_create_entity_r, L_pair. oct. reflexivity. Qed.
Global Hint Resolve Lays_create_entity_r : lay.
Lemma Lays_remove_entity m x : Lays (w_remove_entity m x) (octets (L_remove_entity x)).
Proof. lays w_remove_entity. unfold L_remove_entity, L_pair. oct. reflexivity. Qed.
Global Hint Resolve Lays_remove_entity : lay.
Lemma Lays_remove_entity_r m x : Lays (w_remove_entity_r m x) (octets (L_remove_entity_r x)).
Proof. lays w_remove_entity_r. unfold L_remove_entity_r, L_pair. oct. reflexivity. Qed.
Global Hint Resolve Lays_remove_entity_r : lay.
Lemma Lays_start_resume m x : Lays (w_start_resume m x) (octets (L_start_resume x)).
Proof. lays w_start_resume. unfold L_start_resume, L_pair. oct. reflexivity. Qed.
Global Hint Resolve Lays_start_resume : lay.
Lemma Lays_start_resume_r m x : Lays (w_start_resume_r m x) (octets (L_start_resume_r x)).
Proof. lays w_start_resume_r. unfold L_start_resume_r, L_pair. oct. reflexivity. Qed.
Global Hint Resolve Lays_start_resume_r : lay.
Lemma Lays_stop_freeze m x : Lays (w_stop_freeze m x) (octets (L_stop_freeze x)).
Proof. lays w_stop_freeze. unfold L_stop_freeze, L_pair. oct. reflexivity. Qed.
Global Hint Resolve Lays_stop_freeze : lay.
Lemma Lays_stop_freeze_r m x : Lays (w_stop_freeze_r m x) (octets (L_stop_freeze_r x)).
Proof. lays w_stop_freeze_r. unfold L_stop_freeze_r, L_pair. oct. reflexivity. Qed.
Global Hint Resolve Lays_stop_freeze_r : lay.
Lemma Lays_action_request m x : whole_words (ActionRequest_variable_datum_records x) -> Lays (w_action_request m x) (octets (L_action_request x)).
Proof. lays w_action_request. unfold L_action_request, L_pair, L_datums. oct. reflexivity. Qed.
Global Hint Resolve Lays_action_request : lay.
Lemma Lays_action_request_r m x : whole_words (ActionRequestR_variable_datum_records x) -> Lays (w_action_request_r m x) (octets (L_action_request_r x)).
Proof. lays w_action_request_r. unfold L_action_request_r, L_pair, L_datums. oct. reflexivity. Qed.
Global Hint Resolve Lays_action_request_r : lay.
Lemma Lays_action_response m x : whole_words (ActionResponse_variable_datum_records x) -> Lays (w_action_response m x) (octets (L_action_response x)).
Proof. lays w_action_response. unfold L_action_response, L_pair, L_datums. oct. reflexivity. Qed.
Global Hint Resolve Lays_action_response : lay.
Lemma Lays_action_response_r m x : whole_words (ActionResponseR_variable_datum_records x) -> Lays (w_action_response_r m x) (octets (L_action_response_r x)).
Proof. lays w_action_response_r. unfold L_action_response_r, L_pair, L_datums. oct. reflexivity. Qed.
Global Hint Resolve Lays_action_response_r : lay.
Lemma Lays_data m x : whole_words (Data_variable_datum_records x) -> Lays (w_data m x) (octets (L_data x)).
Proof. lays w_data. unfold L_data, L_pair, L_datums. oct. reflexivity. Qed.
Global Hint Resolve Lays_data : lay.
Lemma Lays_data_r m x : whole_words (DataR_variable_datum_records x) -> Lays (w_data_r m x) (octets (L_data_r x)).
Proof. lays w_data_r. unfold L_data_r, L_pair, L_datums. oct. reflexivity. Qed.
Global Hint Resolve Lays_data_r : lay.
Lemma Lays_set_data m x : whole_words (SetData_variable_datum_records x) -> Lays (w_set_data m x) (octets (L_set_data x)).
Proof. lays w_set_data. unfold L_set_data, L_pair, L_datums. oct. reflexivity. Qed.
Global Hint Resolve Lays_set_data : lay.
Lemma Lays_set_data_r m x : whole_words (SetDataR_variable_datum_records x) -> Lays (w_set_data_r m x) (octets (L_set_data_r x)).
Proof. lays w_set_data_r. unfold L_set_data_r, L_pair, L_datums. oct. reflexivity. Qed.
Global Hint Resolve Lays_set_data_r : lay.
Lemma Lays_event_report m x : whole_words (EventReport_variable_datum_records x) -> Lays (w_event_report m x) (octets (L_event_report x)).
Proof. lays w_event_report. unfold L_event_report, L_pair, L_datums. oct. reflexivity. Qed.
Global Hint Resolve Lays_event_report : lay.
Lemma Lays_event_report_r m x : whole_words (EventReportR_variable_datum_records x) -> Lays (w_event_report_r m x) (octets (L_event_report_r x)).
Proof. lays w_event_report_r. unfold L_event_report_r, L_pair, L_datums. oct. reflexivity. Qed.
Global Hint Resolve Lays_event_report_r : lay.
Lemma Lays_comment m x : whole_words (Comment_variable_datum_records x) -> Lays (w_comment m x) (octets (L_comment x)).
Proof. lays w_comment. unfold L_comment, L_pair, Only_variable. oct. reflexivity. Qed.
Global Hint Resolve Lays_comment : lay.
Lemma Lays_comment_r m x : whole_words (CommentR_variable_datum_records x) -> Lays (w_comment_r m x) (octets (L_comment_r x)).
Proof. lays w_comment_r. unfold L_comment_r, L_pair, Only_variable. oct. reflexivity. Qed.
Global Hint Resolve Lays_comment_r : lay.
Lemma Lays_data_query m x : Lays (w_data_query m x) (octets (L_data_query x)).
Proof. lays w_data_query. unfold L_data_query, L_pair, L_ids. oct. reflexivity. Qed.
Global Hint Resolve Lays_data_query : lay.
Lemma Lays_data_query_r m x : Lays (w_data_query_r m x) (octets (L_data_query_r x)).
Proof. lays w_data_query_r. unfold L_data_query_r, L_pair, L_ids. oct. reflexivity. Qed.
Global Hint Resolve Lays_data_query_r : lay.
Lemma Lays_record_query_r m x : Lays (w_record_query_r m x) (octets (L_record_query_r x)).
Proof. lays w_record_query_r. unfold L_record_query_r, L_pair. oct. reflexivity. Qed.
Global Hint Resolve Lays_record_query_r : lay.
Lemma Lays_set_record_r m x : Lays (w_set_record_r m x) (octets (L_set_record_r x)).
Proof. lays w_set_record_r. unfold L_set_record_r, L_pair. oct. reflexivity. Qed.
Global Hint Resolve Lays_set_record_r : lay.
Lemma Lays_appearance x : Lays (w_entity_appearance x) (be 4 (ea_word x)).
Proof. lays w_entity_appearance. apply app_nil_r. Qed.
Global Hint Resolve Lays_appearance : lay.
Lemma Lays_fire m x : Lays (w_fire m x) (octets (L_fire x)).
Proof. lays w_fire. unfold L_fire, L_pair. oct. reflexivity. Qed.
Global Hint Resolve Lays_fire : lay.
Lemma Lays_detonation m x : Lays (w_detonation m x) (octets (L_detonation x)).
Proof. lays w_detonation. unfold L_detonation, L_pair. oct. reflexivity. Qed.
Global Hint Resolve Lays_detonation : lay.
Lemma Lays_entity_state_update m x : Lays (w_entity_state_update m x) (octets (L_entity_state_update x)).
Proof. lays w_entity_state_update. unfold L_entity_state_update. oct. reflexivity. Qed.
Global Hint Resolve Lays_entity_state_update : lay.
Lemma Lays_propulsion x : Lays (w_propulsion x) (octets [Int 4 (ps_power x); Int 4 (ps_rpm x)]).
Proof. lays w_propulsion. oct. reflexivity. Qed.
Lemma Lays_nozzle x : Lays (w_nozzle x) (octets [Int 4 (vn_horizontal x); Int 4 (vn_vertical x)]).
Proof. lays w_nozzle. oct. reflexivity. Qed.
Global Hint Resolve Lays_propulsion Lays_nozzle : lay.
Lemma Lays_sees m x : Lays (w_sees m x) (octets (L_sees x)).
Proof. lays w_sees. unfold L_sees. oct. reflexivity. Qed.
Global Hint Resolve Lays_sees : lay.
Lemma Lays_other m x : Lays (w_other m x) (octets [Raw (Other_body x)]).
Proof. lays w_other. oct. reflexivity. Qed.
Lemma Lays_attribute_record x : Lays (w_attribute_record x) (octets (L_attribute_record x)).
Proof.
  unfold w_attribute_record. pose proof (zlen_nonneg (ar_fields x)). apply Lays_padded_bind; [lia|lia|].
  eapply Lays_conv; [repeat lay1|]. cbn [pl_padding pl_record]. unfold L_attribute_record, pad_to. cbv zeta. oct. reflexivity.
Qed.
Global Hint Resolve Lays_attribute_record : lay.
Lemma Lays_vtp x : Lays (w_vtp x) (octets (L_vtp x)).
Proof.
  unfold w_vtp. pose proof (zlen_nonneg (vtp_fields x)). apply Lays_padded_bind; [lia|lia|].
  eapply Lays_conv; [repeat lay1|]. cbn [pl_padding pl_record]. unfold L_vtp, pad_to. cbv zeta. oct. reflexivity.
Qed.
Global Hint Resolve Lays_vtp : lay.
Lemma Lays_iff_record x : Lays (w_iff_data_record x) (octets (L_iff_record x)).
Proof.
  unfold w_iff_data_record. pose proof (zlen_nonneg (idr_fields x)). apply Lays_padded_bind; [lia|lia|].
  eapply Lays_conv; [repeat lay1|]. cbn [pl_padding pl_record]. unfold L_iff_record, pad_to. cbv zeta. oct. reflexivity.
Qed.
Global Hint Resolve Lays_iff_record : lay.
Lemma Lays_attribute_set m x : Lays (w_attribute_record_set m x) (octets (L_entity (as_entity_id x) ++ [Int 2 (zlen (as_records x))] ++ flat_map L_attribute_record (as_records x))).
Proof. lays w_attribute_record_set. oct. reflexivity. Qed.
Global Hint Resolve Lays_attribute_set : lay.
Lemma Lays_attribute m x : Lays (w_attribute m x) (octets (L_attribute x)).
Proof. lays w_attribute. unfold L_attribute. oct. reflexivity. Qed.
Global Hint Resolve Lays_attribute : lay.
Lemma Lays_signal m x : standard_body 0 (BSignal x) -> Lays (w_signal m x) (octets (L_signal x)).
Proof.
  cbn [standard_body]. intros H. pose proof (zlen_nonneg (Signal_data x)). unfold w_signal. eapply Lays_conv.
  { do 2 (lay1; [repeat lay1|]). eapply Lays_bind with (o1 := sent (L_scheme (Signal_encoding_scheme x))).
    - assert (HL : forall c n, 0 <= n < 16384 -> be 2 (Z.lor ((c * 16384) mod 65536) n) = be 2 (16384 * c + n)).
      { intros c n Hn. apply be_same. change (256 ^ Z.of_nat 2) with 65536.
        replace (Z.lor ((c * 16384) mod 65536) n) with ((c * 16384) mod 65536 + n).
        - rewrite (Z.mul_comm c), Zplus_mod_idemp_l. reflexivity.
        - replace ((c * 16384) mod 65536) with ((c mod 4) * 2 ^ 14) by (change (2 ^ 14) with 16384; Z.div_mod_to_equations; lia).
          rewrite <- Z.shiftl_mul_pow2 by lia. apply shiftl_add_lor; [lia|]. exact Hn. }
      destruct (Signal_encoding_scheme x); unfold w_encoding_scheme, L_scheme, sent, Int; eapply Lays_conv; repeat lay1; rewrite app_nil_r;
        first [apply HL; exact H|rewrite be2_mod; now rewrite Z.mul_comm].
    - intros. do 5 (lay1; [repeat lay1|]). apply Lays_padded_bind; [lia|lia|]. repeat lay1. }
  cbn [pl_padding]. unfold L_signal, pad_to. cbv zeta. oct. now rewrite (Z.mul_comm (zlen _) 8).
Qed.
Global Hint Resolve Lays_signal : lay.
Lemma Lays_marking n x : Lays (w_marking n x) (octets [Int 1 (mk_charset x); Text n (mk_string x)]).
Proof.
  unfold w_marking. destruct (n <? zlen (mk_string x)); [apply Lays_panic|]. eapply Lays_conv; [repeat lay1|]. oct. reflexivity.
Qed.
Global Hint Resolve Lays_marking : lay.
Lemma Lays_capabilities v k (Q : Z -> Prop) x : (v = 7 \/ ec_word x = 0 \/ (v = 6 /\ version6_flags x)) ->
  Lays (w_capabilities (supported_version v) x) (octets [Field k (ec_word x) Q]) \/ k <> 4%nat.
Proof.
  intros H. destruct (Nat.eq_dec k 4) as [->|]; [left|right; assumption]. unfold w_capabilities, supported_version.
  assert (E : forall w, w = ec_word x -> Lays (put_u32 w;; wret 4)%write (octets [Field 4 (ec_word x) Q])).
  { intros w ->. eapply Lays_conv; [repeat lay1|]. oct. reflexivity. }
  destruct (Z.eqb_spec v 6) as [->|H6]; [|destruct (Z.eqb_spec v 7) as [->|H7]]; apply E; [|reflexivity|].
  - destruct H as [H|[H|(_ & H)]]; [discriminate| |].
    + unfold v6_word. rewrite H. now destruct (ec_kind x).
    + unfold v6_word, version6_flags in *. destruct (ec_kind x); try (now symmetry); Z.div_mod_to_equations; lia.
  - destruct H as [H|[H|(H & _)]]; [contradiction|now symmetry|contradiction].
Qed.
Lemma Lays_dr_other x : Lays (w_dr_other x) (octets (match x with
   | DrNone b => [Raw b]
   | DrEuler yaw pitch roll => [Ignored 1 1; Pad 2; Int 4 yaw; Int 4 pitch; Int 4 roll]
   | DrQuaternion u0 u1 u2 u3 => [Ignored 1 2; Int 2 u0; Int 4 u1; Int 4 u2; Int 4 u3] end)).
Proof. destruct x; unfold w_dr_other; (eapply Lays_conv; [repeat lay1|]); oct; reflexivity. Qed.
Global Hint Resolve Lays_dr_other : lay.
Lemma Lays_entity_state m v x : standard_body v (BEntityState x) -> Lays (w_entity_state m (supported_version v) x) (octets (L_entity_state v x)).
Proof.
  cbn [standard_body]. cbv zeta. intros H. unfold w_entity_state, w_dr_parameters. eapply Lays_conv.
  { do 11 (lay1; [repeat lay1|]). eapply Lays_bind.
    - destruct (Lays_capabilities v 4 (capabilities_word v (et_kind (EntityState_entity_type x)) (ec_word (EntityState_capabilities x))) _ H) as [HL|HL]; [exact HL|congruence].
    - intros. repeat lay1. }
  unfold L_entity_state. oct. reflexivity.
Qed.
Global Hint Resolve Lays_entity_state : lay.
Lemma Lays_aggregate_type x : Lays (w_aggregate_type x) (octets (L_aggregate_type x)).
Proof. lays w_aggregate_type. unfold L_aggregate_type. oct. reflexivity. Qed.
Global Hint Resolve Lays_aggregate_type : lay.
Lemma Lays_silent_aggregate x : Lays (w_silent_aggregate x) (octets (L_silent_aggregate x)).
Proof. lays w_silent_aggregate. unfold L_silent_aggregate. oct. reflexivity. Qed.
Global Hint Resolve Lays_silent_aggregate : lay.
Lemma Lays_lens {A} m (f : A -> Z) l : Lays (wmap_sum m (fun x => wret (f x)) l) [].
Proof. eapply Lays_conv; [apply (Lays_sum m _ (fun _ => [])); intros; apply Lays_ret|]. induction l; auto. Qed.
Global Hint Resolve Lays_lens : lay.
Lemma Lays_len_silent m x : Lays (len_silent_entity m x) [].
Proof. unfold len_silent_entity. eapply Lays_conv; [lay1; [apply (Lays_lens m (fun _ => 4))|repeat lay1]|]. reflexivity. Qed.
Global Hint Resolve Lays_len_silent : lay.
Lemma Lays_silent_entity m x : Lays (w_silent_entity m x) (octets (L_silent_entity x)).
Proof. lays w_silent_entity. unfold L_silent_entity. oct. reflexivity. Qed.
Global Hint Resolve Lays_silent_entity : lay.
Lemma sum_val m (c : Z) {A} (l : list A) bs a : wmap_sum m (fun _ => wret c) l = WOk bs a -> 0 <= c -> bs = [] /\ a mod 65536 = (c * zlen l) mod 65536.
Proof.
  unfold wmap_sum. intros E Hc. assert (G : forall acc bs a, wsum m (fun _ : A => wret c) l acc = WOk bs a -> bs = [] /\ a mod 65536 = (acc + c * zlen l) mod 65536).
  { clear. induction l as [|x t IH]; intros acc bs a; cbn [wsum].
    - intros E. injection E as <- <-. split; [reflexivity|]. rewrite zlen_nil. f_equal. lia.
    - intros E. cbv [wbind wret] in E. destruct (@add16 Z m acc c) as [b1 s|] eqn:E1; [|discriminate E]. apply arith_val in E1. destruct E1 as (-> & E1 & _).
      destruct (wsum m _ t s) as [b2 s2|] eqn:E2; [|discriminate E]. injection E as <- <-. apply IH in E2. destruct E2 as [-> E2].
      split; [reflexivity|]. rewrite E2, zlen_cons. rewrite <- (Zplus_mod_idemp_l s), E1, Zplus_mod_idemp_l. f_equal. lia. }
  apply G in E. exact E.
Qed.
Lemma agg_val m a b bs p : agg_intermediate m a b = WOk bs p -> bs = [] /\ snd p = (- (6 * (zlen a + zlen b))) mod 4.
Proof.
  unfold agg_intermediate. intros E. cbv [wbind] in E.
  destruct (wmap_sum m _ a) as [b1 r1|] eqn:E1; [|discriminate]. destruct (@add16 Z m 124 r1) as [b2 r2|] eqn:E2; [|discriminate].
  destruct (wmap_sum m _ b) as [b3 r3|] eqn:E3; [|discriminate]. destruct (@add16 Z m r2 r3) as [b4 r4|] eqn:E4; [|discriminate].
  destruct (@add16 Z m r4 (r4 mod 4)) as [b5 r5|] eqn:E5; [|discriminate]. injection E as <- <-.
  apply sum_val in E1; [|lia]. apply sum_val in E3; [|lia]. apply arith_val in E2, E4, E5.
  destruct E1 as [-> E1], E3 as [-> E3], E2 as (-> & E2 & _), E4 as (-> & E4 & _), E5 as (-> & _). split; [reflexivity|].
  cbn [snd]. Z.div_mod_to_equations; lia.
Qed.
Lemma Lays_agg m a b : Lays (agg_intermediate m a b) []. Proof. intros bs p E. now apply agg_val in E. Qed.
Global Hint Resolve Lays_agg : lay.
Lemma Lays_len_vds m l : Lays (len_variable_datums m l) [].
Proof.
  unfold len_variable_datums. eapply Lays_conv; [apply (Lays_sum m _ (fun _ => [])); intros; eapply Lays_conv; [repeat lay1|reflexivity]|]. induction l; auto.
Qed.
Global Hint Resolve Lays_len_vds : lay.
Lemma Lays_len_silents m l : Lays (wmap_sum m (len_silent_entity m) l) [].
Proof. eapply Lays_conv; [apply (Lays_sum m _ (fun _ => [])); intros; apply Lays_len_silent|]. induction l; auto. Qed.
Global Hint Resolve Lays_len_silents : lay.
Lemma Lays_len_aggregate m x : Lays (len_aggregate_state m x) [].
Proof. lays len_aggregate_state; reflexivity. Qed.
Global Hint Resolve Lays_len_aggregate : lay.
Lemma Lays_aggregate_state m x : standard_body 0 (BAggregateState x) -> Lays (w_aggregate_state m x) (octets (L_aggregate_state x)).
Proof.
  cbn [standard_body]. intros H. unfold w_aggregate_state. eapply Lays_conv.
  { do 16 (lay1; [repeat lay1|]). eapply Lays_bind_val with (o1 := []); [intros ? ?; apply agg_val|].
    intros ip Ha. cbv beta in Ha. lay1; [rewrite Ha; repeat lay1|]. repeat lay1. }
  unfold L_aggregate_state. oct. reflexivity.
Qed.
Global Hint Resolve Lays_aggregate_state : lay.
Lemma Lays_shaft x : Lays (w_shaft x) (octets (L_shaft x)).
Proof. lays w_shaft. unfold L_shaft. oct. reflexivity. Qed.
Global Hint Resolve Lays_shaft : lay.
Lemma Lays_track x : Lays (w_track_jam x) (octets (L_track x)).
Proof. lays w_track_jam. unfold L_track. oct. reflexivity. Qed.
Global Hint Resolve Lays_track : lay.
Lemma Lays_apa x : apa_parameter x = 0 /\ apa_status x = 0 -> Lays (w_apa x) (octets (L_apa x)).
Proof. intros [Hp Hs]. lays w_apa. unfold L_apa. oct. rewrite Hp, Hs. reflexivity. Qed.
Lemma Lays_plant x : Lays (w_propulsion_plant x) (octets [Int 1 (2 * pp_configuration x + if pp_masker x then 1 else 0)]).
Proof.
  lays w_propulsion_plant. oct. apply be_same. change (256 ^ Z.of_nat 1) with 256. rewrite Z.shiftl_mul_pow2 by lia.
  change (2 ^ 1) with 2. set (c := pp_configuration x). set (b := if pp_masker x then 1 else 0).
  assert (Hb : 0 <= b < 2) by (subst b; destruct (pp_masker x); lia).
  replace ((c * 2) mod 256) with (Z.shiftl (c mod 128) 1) by (rewrite Z.shiftl_mul_pow2 by lia; Z.div_mod_to_equations; lia).
  rewrite <- shiftl_add_lor by (try exact Hb; lia). rewrite Z.shiftl_mul_pow2 by lia. change (2 ^ 1) with 2. Z.div_mod_to_equations; lia.
Qed.
Global Hint Resolve Lays_plant : lay.
Lemma Lays_rl_ua m x : Lays (rl_ua_system m x) [].
Proof. unfold rl_ua_system. eapply Lays_conv; [lay1; [apply (Lays_lens m (fun _ => 24))|repeat lay1]|]. reflexivity. Qed.
Global Hint Resolve Lays_rl_ua : lay.
Lemma Lays_rl_uas m l : Lays (wmap_sum m (rl_ua_system m) l) [].
Proof. eapply Lays_conv; [apply (Lays_sum m _ (fun _ => [])); intros; apply Lays_rl_ua|]. induction l; auto. Qed.
Global Hint Resolve Lays_rl_uas : lay.
Lemma Lays_len_ua m x : Lays (len_underwater_acoustic m x) [].
Proof.
  unfold len_underwater_acoustic. eapply Lays_conv; [lay1; [apply (Lays_lens m (fun _ => 8))|]; lay1; [repeat lay1|]; lay1; [apply (Lays_lens m (fun _ => 4))|]; repeat lay1|].
  reflexivity.
Qed.
Global Hint Resolve Lays_len_ua : lay.
Lemma Lays_apas m l : Forall (fun a => apa_parameter a = 0 /\ apa_status a = 0) l -> Lays (wmap_sum m w_apa l) (octets (flat_map L_apa l)).
Proof. intros H. rewrite octets_flat_map. apply Lays_sum_F. revert H. apply Forall_impl. intros. now apply Lays_apa. Qed.
Global Hint Resolve Lays_apas : lay.
Lemma Lays_underwater_acoustic m x : standard_body 0 (BUnderwaterAcoustic x) -> Lays (w_underwater_acoustic m x) (octets (L_underwater_acoustic x)).
Proof.
  cbn [standard_body]. intros [Hs Ha]. unfold w_underwater_acoustic. rewrite Hs. eapply Lays_conv; [repeat lay1|].
  unfold L_underwater_acoustic. rewrite Hs. oct. reflexivity.
Qed.
Global Hint Resolve Lays_underwater_acoustic : lay.
Lemma Lays_fpd x : Lays (w_fpd x) (octets [Int 4 (fp_frequency x); Int 4 (fp_range x); Int 4 (fp_power x); Int 4 (fp_prf x); Int 4 (fp_width x)]).
Proof. lays w_fpd. oct. reflexivity. Qed.
Lemma Lays_jamming x : Lays (w_jamming x) (octets [Int 1 (jt_kind x); Int 1 (jt_category x); Int 1 (jt_subcategory x); Int 1 (jt_specific x)]).
Proof. lays w_jamming. oct. reflexivity. Qed.
Global Hint Resolve Lays_fpd Lays_jamming : lay.
Lemma rl_beam_val m x bs a : rl_beam m x = WOk bs a -> bs = [] /\ a mod 65536 = beam_octets x mod 65536 /\ 0 <= a < 65536.
Proof.
  unfold rl_beam. intros E. cbv [wbind] in E. destruct (@mul16 Z m 8 _) as [b1 r1|] eqn:E1; [|discriminate].
  destruct (@add16 Z m 52 r1) as [b2 r2|] eqn:E2; [|discriminate]. injection E as <- <-. apply arith_val in E1, E2.
  destruct E1 as (-> & E1 & _), E2 as (-> & E2 & E3). split; [reflexivity|]. split; [|exact E3]. unfold beam_octets.
  rewrite E2. rewrite <- (Zplus_mod_idemp_r r1), E1, Zplus_mod_idemp_r. rewrite <- (Zplus_mod_idemp_r (8 * (_ mod _))), Zmult_mod_idemp_r, Zplus_mod_idemp_r. reflexivity.
Qed.
Lemma words_sent n a : a mod 65536 = n mod 65536 -> 0 <= a < 65536 -> 0 <= n <= 1023 -> be 1 (a / 4 mod 256) = be 1 (words n).
Proof.
  intros E Ha Hn. rewrite be1_mod. assert (a = n) as -> by (rewrite Z.mod_small in E by lia; rewrite Z.mod_small in E; lia).
  unfold words. destruct (Z.leb_spec (n / 4) 255) as [_|H]; [reflexivity|]. exfalso. Z.div_mod_to_equations; lia.
Qed.
Lemma beam_octets_pos x : 0 <= beam_octets x. Proof. unfold beam_octets. pose proof (zlen_nonneg (be_tracks x)). lia. Qed.
Lemma Lays_beam m x : beam_octets x <= 1020 -> Lays (w_beam m x) (octets (L_beam x)).
Proof.
  intros H. unfold w_beam. pose proof (beam_octets_pos x). eapply Lays_conv.
  { eapply Lays_bind_val with (o1 := []) ; [intros ? ?; apply rl_beam_val|]. intros rl [Ha Hr].
    lay1; [eapply Lays_conv; [repeat lay1|apply (words_sent (beam_octets x) rl Ha Hr); lia]|]. repeat lay1. }
  unfold L_beam. oct. reflexivity.
Qed.
Lemma rl_emitter_val m x bs a : rl_emitter_system m x = WOk bs a -> bs = [] /\ a mod 65536 = (20 + zsum (map beam_octets (es_beams x))) mod 65536 /\ 0 <= a < 65536.
Proof.
  unfold rl_emitter_system. intros E. cbv [wbind] in E. destruct (wmap_sum m (rl_beam m) _) as [b1 r1|] eqn:E1; [|discriminate].
  destruct (@add16 Z m 20 r1) as [b2 r2|] eqn:E2; [|discriminate]. injection E as <- <-. apply arith_val in E2. destruct E2 as (-> & E2 & E3).
  assert (G : forall l acc bs a, wsum m (rl_beam m) l acc = WOk bs a -> bs = [] /\ a mod 65536 = (acc + zsum (map beam_octets l)) mod 65536).
  { induction l as [|y t IH]; intros acc bs a; cbn [wsum map zsum].
    - intros E. injection E as <- <-. split; [reflexivity|]. f_equal. lia.
    - intros E. cbv [wbind wret] in E. destruct (rl_beam m y) as [c1 s1|] eqn:F1; [|discriminate E]. apply rl_beam_val in F1. destruct F1 as (-> & F1 & _).
      destruct (@add16 Z m acc s1) as [c2 s2|] eqn:F2; [|discriminate E]. apply arith_val in F2. destruct F2 as (-> & F2 & _).
      destruct (wsum m _ t s2) as [c3 s3|] eqn:F3; [|discriminate E]. injection E as <- <-. apply IH in F3. destruct F3 as [-> F3].
      split; [reflexivity|]. rewrite F3. rewrite <- (Zplus_mod_idemp_l s2), F2, Zplus_mod_idemp_l.
      replace (acc + s1 + zsum (map beam_octets t)) with (s1 + (acc + zsum (map beam_octets t))) by lia. rewrite <- (Zplus_mod_idemp_l s1), F1, Zplus_mod_idemp_l. f_equal. lia. }
  apply G in E1. destruct E1 as [-> E1]. split; [reflexivity|]. split; [|exact E3].
  rewrite E2, <- (Zplus_mod_idemp_r r1), E1, Zplus_mod_idemp_r. f_equal.
Qed.
Lemma Lays_emitter m x : 20 + zsum (map beam_octets (es_beams x)) <= 1020 -> Lays (w_emitter_system m x) (octets (L_emitter x)).
Proof.
  intros H. unfold w_emitter_system.
  assert (Hs : forall l, 0 <= zsum (map beam_octets l) /\ Forall (fun b => beam_octets b <= zsum (map beam_octets l)) l).
  { induction l as [|y t [IH1 IH2]]; cbn [map zsum]; [split; [lia|constructor]|]. pose proof (beam_octets_pos y). split; [lia|].
    constructor; [lia|]. revert IH2. apply Forall_impl. intros. lia. }
  destruct (Hs (es_beams x)) as [H0 HF]. eapply Lays_conv.
  { eapply Lays_bind_val with (o1 := []) ; [intros ? ?; apply rl_emitter_val|]. intros rl [Ha Hr].
    lay1; [eapply Lays_conv; [repeat lay1|apply (words_sent _ rl Ha Hr); lia]|]. do 6 (lay1; [repeat lay1|]). lay1; [|repeat lay1].
    apply Lays_sum_F with (g := fun b => octets (L_beam b)). revert HF. apply Forall_impl. intros b Hb. apply Lays_beam. lia. }
  unfold L_emitter. oct. reflexivity.
Qed.
Lemma Lays_emission m x : standard_body 0 (BElectromagneticEmission x) -> Lays (w_emission m x) (octets (L_emission x)).
Proof.
  cbn [standard_body]. intros H. unfold w_emission. eapply Lays_conv.
  { do 5 (lay1; [repeat lay1|]). eapply Lays_bind; [|intros ?; repeat lay1].
    apply Lays_sum_F with (g := fun b => octets (L_emitter b)). revert H. apply Forall_impl. intros b Hb. now apply Lays_emitter. }
  unfold L_emission. oct. reflexivity.
Qed.
Global Hint Resolve Lays_emission : lay.
Lemma Lays_modulation x : Lays (w_modulation_type x) (octets (L_modulation x)).
Proof. lays w_modulation_type. unfold L_modulation. destruct x as [[h n t] mj sy]; cbn [mt_spread mt_major mt_system ss_hopping ss_noise ss_time]. destruct mj; destruct h, n, t; oct; reflexivity. Qed.
Global Hint Resolve Lays_modulation : lay.
Lemma Lays_crypto x : Lays (w_crypto_key_id x) (octets [Int 2 (2 * ck_key x + if ck_diphase x then 1 else 0)]).
Proof.
  lays w_crypto_key_id. oct. apply be_same. unfold crypto_to_u16. change (256 ^ Z.of_nat 2) with 65536.
  rewrite Zplus_mod_idemp_l. rewrite Z.shiftl_mul_pow2 by lia. f_equal. lia.
Qed.
Global Hint Resolve Lays_crypto : lay.
Lemma Lays_pattern x : Lays (w_beam_antenna_pattern x) (octets (L_pattern x)).
Proof. lays w_beam_antenna_pattern. unfold L_pattern. oct. reflexivity. Qed.
Global Hint Resolve Lays_pattern : lay.
Lemma bytes_be1 l : bytes l -> flat_map (be 1) l = l.
Proof.
  induction 1 as [|x t Hx _ IH]; [reflexivity|]. cbn [flat_map]. rewrite IH. cbv [be]. change (256 ^ Z.of_nat 0) with 1. rewrite Z.div_1_r, Z.mod_small by lia. reflexivity.
Qed.
Lemma Lays_octet x : Lays (w_octet x) (be 1 x).
Proof. lays w_octet. apply app_nil_r. Qed.
Global Hint Resolve Lays_octet : lay.
Lemma Lays_transmitter m v x : (forall l, Transmitter_modulation_parameters x = Some l -> bytes l) -> Lays (w_transmitter m x) (octets (L_transmitter v x)).
Proof.
  intros Hb. unfold w_transmitter, pattern_len, modparams_len, L_transmitter.
  destruct (Transmitter_modulation_parameters x) as [l|]; destruct (Transmitter_antenna_pattern x) as [b|]; (eapply Lays_conv; [repeat lay1|]);
    oct; rewrite ?bytes_be1 by (apply Hb; reflexivity); rewrite <- ?app_assoc; reflexivity.
Qed.
Global Hint Resolve Lays_transmitter : lay.
Lemma Lays_ged_base x : Lays (w_ged_base x) (octets (L_ged_base x)).
Proof. lays w_ged_base. unfold L_ged_base. oct. reflexivity. Qed.
Global Hint Resolve Lays_ged_base : lay.
Lemma Lays_ged_ground x : Lays (w_ged_ground x) (octets (L_ged_ground x)).
Proof. lays w_ged_ground. unfold L_ged_ground. oct. reflexivity. Qed.
Global Hint Resolve Lays_ged_ground : lay.
Lemma Lays_ged_air x : Lays (w_ged_air x) (octets (L_ged_air x)).
Proof. lays w_ged_air. unfold L_ged_air. oct. reflexivity. Qed.
Global Hint Resolve Lays_ged_air : lay.
Lemma Lays_quad x : Lays (w_quad x) (octets (L_quad x)).
Proof. lays w_quad. unfold L_quad. oct. reflexivity. Qed.
Global Hint Resolve Lays_quad : lay.
Lemma Lays_ged x : Lays (w_ged x) (octets (L_ged x)).
Proof. unfold w_ged, L_ged. destruct x; (eapply Lays_conv; [repeat lay1|]); oct; reflexivity. Qed.
Global Hint Resolve Lays_ged : lay.
Lemma Lays_is_group_of m x : Lays (w_is_group_of m x) (octets (L_is_group_of x)).
Proof. lays w_is_group_of. unfold L_is_group_of. oct. reflexivity. Qed.
Global Hint Resolve Lays_is_group_of : lay.
Lemma Lays_layer_header x : Lays (w_layer_header x) (octets (L_layer_header x)).
Proof. lays w_layer_header. unfold L_layer_header. oct. reflexivity. Qed.
Global Hint Resolve Lays_layer_header : lay.
Lemma Lays_iff_parameter x : Lays (w_iff_parameter x) (octets (L_iff_parameter x)).
Proof. lays w_iff_parameter. unfold L_iff_parameter. oct. reflexivity. Qed.
Global Hint Resolve Lays_iff_parameter : lay.
Lemma Lays_iff_records m x : Lays (w_iff_data_specification m x) (octets (L_iff_records x)).
Proof. lays w_iff_data_specification. unfold L_iff_records. oct. reflexivity. Qed.
Global Hint Resolve Lays_iff_records : lay.
Lemma Lays_layer_2 m x : Lays (w_iff_layer_2 m x) (octets (L_layer_2 x)).
Proof. lays w_iff_layer_2. unfold L_layer_2. oct. reflexivity. Qed.
Global Hint Resolve Lays_layer_2 : lay.
Lemma Lays_mode_5 x : Lays (w_mode5_basic_data x) (octets (L_mode_5 x)).
Proof. destruct x; unfold w_mode5_basic_data, w_mode5_interrogator, w_mode5_transponder; (eapply Lays_conv; [repeat lay1|]); unfold L_mode_5, Flags; oct; reflexivity. Qed.
Global Hint Resolve Lays_mode_5 : lay.
Lemma Lays_layer_3 m x : Lays (w_iff_layer_3 m x) (octets (L_layer_3 x)).
Proof. lays w_iff_layer_3. unfold L_layer_3. oct. reflexivity. Qed.
Global Hint Resolve Lays_layer_3 : lay.
Lemma Lays_layer_4 m x : match l4_basic x with MSTransponder _ => False | MSInterrogator _ => True end -> Lays (w_iff_layer_4 m x) (octets (L_layer_4 x)).
Proof.
  intros H. unfold w_iff_layer_4, L_layer_4. destruct (l4_basic x); [|contradiction]. unfold w_modes_basic_data, w_modes_interrogator.
  eapply Lays_conv; [repeat lay1|]. unfold L_mode_s, Flags. oct. reflexivity.
Qed.
Lemma Lays_layer_5 m x : Lays (w_iff_layer_5 m x) (octets (L_layer_5 x)).
Proof. lays w_iff_layer_5. unfold L_layer_5, Flags. oct. reflexivity. Qed.
Global Hint Resolve Lays_layer_5 : lay.
Lemma Lays_option {A} (w : A -> W Z) (L : A -> list item) o : (forall a, o = Some a -> Lays (w a) (octets (L a))) -> Lays (w_option w o) (octets (L_optional L o)).
Proof. intros H. destruct o; cbn [w_option L_optional]; [apply H; reflexivity|apply Lays_ret]. Qed.
Lemma Lays_iff m x : standard_body 0 (BIff x) -> Lays (w_iff m x) (octets (L_iff x)).
Proof.
  cbn [standard_body]. intros H. unfold w_iff, w_system_id, w_fund_op_data. eapply Lays_conv.
  { do 7 (lay1; [repeat lay1|]). lay1; [apply Lays_option with (L := L_layer_2); intros; apply Lays_layer_2|]. lay1; [apply Lays_option with (L := L_layer_3); intros; apply Lays_layer_3|].
    lay1; [apply Lays_option with (L := L_layer_4); intros l4 E4; apply Lays_layer_4; rewrite E4 in H; exact H|].
    lay1; [apply Lays_option with (L := L_layer_5); intros; apply Lays_layer_5|]. repeat lay1. }
  unfold L_iff, Flags. cbv zeta. oct. reflexivity.
Qed.
Global Hint Resolve Lays_iff : lay.
Lemma Lays_header x : h_version x = 7 \/ h_status x = None -> Lays (w_header x) (octets (L_header x)).
Proof.
  intros H. unfold w_header. eapply Lays_conv.
  { do 6 (lay1; [repeat lay1|]). eapply Lays_bind with (o1 := octets (match h_status x with
       | Some s => [Field 1 (write_status (h_type x) s) (fun b => parse_status (h_type x) b = s); Pad 1] | None => [Pad 2] end)).
    - destruct (Z.eqb_spec (h_version x) 7) as [E|E].
      + destruct (h_status x); (eapply Lays_conv; [repeat lay1|]); oct; reflexivity.
      + destruct H as [H| ->]; [contradiction|]. eapply Lays_conv; [repeat lay1|]. oct. reflexivity.
    - intros. repeat lay1. }
  unfold L_header. oct. reflexivity.
Qed.
Lemma Lays_body m v b : wf_body b -> standard_body v b -> Lays (w_body m v b) (octets (L_body v b)).
Proof.
  intros Hw H. destruct b; cbn [w_body L_body]; try solve [eauto with lay | contradiction | apply Lays_other].
  - apply Lays_transmitter. intros l E. cbn [wf_body] in Hw. unfold wf_Transmitter in Hw. rewrite E in Hw. tauto.
Qed.

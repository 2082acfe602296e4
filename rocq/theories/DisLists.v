(** List-valued parts of PDU bodies, shared lengths, and the tactics that prove the
    codec lemmas of the individual PDUs. *)
From Verif Require Import Base DisCommon.

(** * Sums that write nothing (body_length computations) *)
Lemma wsum_pure {A} m (f : A -> W Z) (len : A -> Z) l :
  (forall x, In x l -> f x = WOk [] (len x) /\ 0 <= len x) ->
  forall acc, 0 <= acc -> acc + zsum (map len l) < 65536 -> wsum m f l acc = WOk [] (acc + zsum (map len l)).
Proof.
  induction l as [|x l IH]; intros Hx acc Ha Hs; cbn [wsum map zsum] in *.
  - rewrite Z.add_0_r. reflexivity.
  - destruct (Hx x (or_introl eq_refl)) as [Hf Hl].
    assert (Hs0 : 0 <= zsum (map len l)).
    { apply zsum_nonneg, Forall_forall. intros z Hz. apply in_map_iff in Hz. destruct Hz as (y & <- & Hy).
      apply Hx. now right. }
    rewrite Hf. unfold wbind at 1. rewrite add16_ok by lia. unfold wbind. rewrite IH; [|auto|lia|lia].
    + cbn. f_equal. lia.
    + intros y Hy; apply Hx; now right.
Qed.
Lemma wmap_sum_pure {A} m (f : A -> W Z) (len : A -> Z) l :
  (forall x, In x l -> f x = WOk [] (len x) /\ 0 <= len x) ->
  zsum (map len l) < 65536 -> wmap_sum m f l = WOk [] (zsum (map len l)).
Proof. intros Hx Hs. unfold wmap_sum. rewrite (wsum_pure m f len l Hx 0); [f_equal; lia|lia|lia]. Qed.
Lemma zsum_map_nonneg {A} (f : A -> Z) l : (forall x, In x l -> 0 <= f x) -> 0 <= zsum (map f l).
Proof.
  intros H. apply zsum_nonneg, Forall_forall. intros z Hz. apply in_map_iff in Hz. destruct Hz as (y & <- & Hy). auto.
Qed.

(** associativity of parser sequencing, used to look inside composite parsers *)
Lemma RT_passoc {R A B C} (w : W R) (p : bparser A) (f : A -> bparser B) (g : B -> bparser C) x r L :
  RT w (pbind p (fun a => pbind (f a) g)) x r L -> RT w (pbind (pbind p f) g) x r L.
Proof.
  intros (b & Hw & Hl & Hp). exists b. repeat split; auto. intros rest. rewrite <- Hp. unfold pbind.
  destruct (p (b ++ rest)); reflexivity.
Qed.
Lemma RT_pret_bind {R A B} (w : W R) (a : A) (g : A -> bparser B) x r L :
  RT w (g a) x r L -> RT w (pbind (pret a) g) x r L.
Proof. intros (b & Hw & Hl & Hp). exists b. split; [exact Hw|split; [exact Hl|]]. intros rest. exact (Hp rest). Qed.
Lemma RT_count0 {R A B} (w : W R) (p : bparser A) (g : list A -> bparser B) x r L :
  RT w (g []) x r L -> RT w (pbind (count p 0) g) x r L.
Proof. apply RT_pret_bind. Qed.
(** end of a writer that finishes with a size computation *)
Lemma RT_pure_end {A} (w : W Z) (x : A) r : w = WOk [] r -> RT w (pret x) x r 0.
Proof. intros ->. apply RT_ret. Qed.

(** * Variable datums *)
(** octets of a variable datum record: 8 + value padded to 8 (IEEE 1278.1 6.2.93) *)
Definition vd_size (d : VariableDatum) : Z := 8 + zlen (vd_value d) + pad_to (zlen (vd_value d)) 8.
Definition vds_size (l : list VariableDatum) : Z := zsum (map vd_size l).
(** datums for which the writer's padding is right: the value is a multiple of 8 octets,
    and its length in bits fits 16 bits *)
Definition vd_ok (d : VariableDatum) : Prop := zlen (vd_value d) mod 8 = 0 /\ zlen (vd_value d) < 8184.
Lemma vd_size_nonneg d : 8 <= vd_size d.
Proof. unfold vd_size. pose proof (zlen_nonneg (vd_value d)). pose proof (pad_to_bound (zlen (vd_value d)) 8). lia. Qed.
Lemma vds_size_bound l : 8 * zlen l <= vds_size l.
Proof.
  unfold vds_size. induction l as [|d l IH]; cbn [map zsum]; [unfold zlen; cbn; lia|].
  rewrite zlen_cons. pose proof (vd_size_nonneg d). lia.
Qed.
Lemma vd_ok_size d : vd_ok d -> vd_size d = 8 + zlen (vd_value d).
Proof. intros [H _]. unfold vd_size. rewrite pad_to_aligned by (lia || assumption). lia. Qed.
(** the sum over the variable datums in [body_length] of e.g. common/action_request/model.rs:38-48:
    [length_padded_to_num(BASE_VARIABLE_DATUM_LENGTH + len, 8).record_length as u16] *)
Definition len_variable_datums (m : mode) (l : list VariableDatum) : W Z :=
  wmap_sum m (fun d => (pl <- w_padded (8 + zlen (vd_value d)) 8;; wret (pl_record pl mod 65536))%write) l.
Lemma pad_to_8p d : pad_to (8 + d) 8 = pad_to d 8.
Proof. unfold pad_to. replace (- (8 + d)) with (- d + (-1) * 8) by lia. apply Z_mod_plus_full. Qed.
Lemma len_variable_datums_ok m l : vds_size l < 65536 -> len_variable_datums m l = WOk [] (vds_size l).
Proof.
  intros H. unfold len_variable_datums, vds_size. apply wmap_sum_pure; [|exact H].
  intros d Hd. pose proof (zlen_nonneg (vd_value d)). pose proof (vd_size_nonneg d).
  assert (vd_size d <= vds_size l).
  { clear H. unfold vds_size. induction l as [|e l IH]; [easy|]. cbn [map zsum]. pose proof (vds_size_bound l).
    pose proof (zlen_nonneg l). unfold vds_size in *.
    destruct Hd as [->|Hd]; [lia|]. specialize (IH Hd). pose proof (vd_size_nonneg e). lia. }
  rewrite w_padded_ok by lia. unfold wbind, wret. cbn [app pl_record]. rewrite pad_to_8p. split; [|lia].
  unfold vd_size in *. rewrite Z.mod_small by (pose proof (pad_to_bound (zlen (vd_value d)) 8); lia). reflexivity.
Qed.
Lemma RT_variable_datums m l n : n = zlen l -> Forall wf_VariableDatum l -> Forall vd_ok l -> vds_size l < 65536 ->
  RT (wmap_sum m (w_variable_datum m) l) (count p_variable_datum n) l (vds_size l) (vds_size l).
Proof.
  intros Hn Hw Hok Hs. unfold vds_size. apply RT_wmap_sum; [exact Hn| |exact Hs].
  intros d Hd. rewrite Forall_forall in Hw, Hok. rewrite (vd_ok_size d) by auto.
  destruct (Hok d Hd). apply RT_variable_datum; auto.
Qed.

(** * Lists with elements of a constant size *)
Lemma RT_const_list {A} m (w : A -> W Z) (p : bparser A) (P : A -> Prop) c l n :
  (forall x, P x -> RT (w x) p x c c) -> n = zlen l -> Forall P l -> c * zlen l < 65536 ->
  RT (wmap_sum m w l) (count p n) l (c * zlen l) (c * zlen l).
Proof.
  intros Hrt Hn HP Hs. rewrite <- (zsum_const (fun _ => c) c l) by auto.
  apply RT_wmap_sum; [exact Hn| |].
  - intros x Hx. apply Hrt. rewrite Forall_forall in HP. auto.
  - rewrite (zsum_const (fun _ => c) c l) by auto. exact Hs.
Qed.
Lemma RT_fixed_datums m l n : n = zlen l -> Forall wf_FixedDatum l -> 8 * zlen l < 65536 ->
  RT (wmap_sum m w_fixed_datum l) (count p_fixed_datum n) l (8 * zlen l) (8 * zlen l).
Proof. apply RT_const_list. apply RT_fixed_datum. Qed.
Lemma RT_supplies m l n : n = zlen l -> Forall wf_SupplyQuantity l -> 12 * zlen l < 65536 ->
  RT (wmap_sum m w_supply_quantity l) (count p_supply_quantity n) l (12 * zlen l) (12 * zlen l).
Proof. apply RT_const_list. apply RT_supply_quantity. Qed.
(** [iter().map(|id| { buf.put_u32(id.into()); 4 })], common/data_query/writer.rs *)
Definition w_u32_elt (d : Z) : W Z := (put_u32 d;; wret 4)%write.
Lemma RT_u32_elt d : u32 d -> RT (w_u32_elt d) be_u32 d 4 4.
Proof. intros H. unfold w_u32_elt. apply (RT_wmap (put_u32 d) (fun _ => 4) be_u32 d tt 4), RT_u32, H. Qed.
Lemma RT_u32s m l n : n = zlen l -> Forall u32 l -> 4 * zlen l < 65536 ->
  RT (wmap_sum m w_u32_elt l) (count be_u32 n) l (4 * zlen l) (4 * zlen l).
Proof. apply RT_const_list. apply RT_u32_elt. Qed.
(** variable parameters the wire format can represent; separation records are excluded
    because the parser reads one octet less than the writer emits *)
Definition vp_ok (v : VariableParameter) : Prop := vp_canonical v /\ not_separation v.
Lemma RT_vps m l n : n = zlen l -> Forall wf_VariableParameter l -> Forall vp_ok l -> 16 * zlen l < 65536 ->
  RT (wmap_sum m (w_variable_parameter m) l) (count p_variable_parameter n) l (16 * zlen l) (16 * zlen l).
Proof.
  intros Hn Hw Hok Hs.
  eapply (RT_const_list m _ _ (fun v => wf_VariableParameter v /\ vp_ok v)); [|exact Hn| |exact Hs].
  - intros x [H1 [H2 H3]]. apply RT_variable_parameter; assumption.
  - rewrite Forall_forall in *. auto.
Qed.
(** every variable parameter is written as 16 octets, separations included *)
Lemma w_vp_16 m v : wf_VariableParameter v -> vp_canonical v -> exists bs, w_variable_parameter m v = WOk bs 16 /\ zlen bs = 16.
Proof.
  intros Hw Hc. destruct v as [x|x|x|x|x|t b] eqn:E;
    try (destruct (RT_variable_parameter m v) as (bs & H1 & H2 & _); subst; eauto; exact I).
  apply w_separation_len.
Qed.

(** * Record specifications *)
Definition rs_ok (r : RecordSet) : Prop :=
  rs_uniform r /\ rs_length_bytes r < 8192 /\ zlen (rs_records r) < 65536.
Definition recspec_size (l : list RecordSet) : Z := 4 + zsum (map rs_size l).
Lemma rs_size_bound r : wf_RecordSet r -> 16 <= rs_size r.
Proof.
  intros (_ & _ & Hl & _). unfold rs_size. cbv zeta. unfold u16 in Hl. pose proof (zlen_nonneg (rs_records r)).
  pose proof (pad_to_bound (rs_length_bytes r * zlen (rs_records r)) 8). nia.
Qed.
Lemma recspec_size_bound l : Forall wf_RecordSet l -> 4 + 16 * zlen l <= recspec_size l.
Proof.
  unfold recspec_size. induction l as [|r l IH]; intros H; cbn [map zsum]; [unfold zlen; cbn; lia|].
  inversion H; subst. rewrite zlen_cons. pose proof (rs_size_bound r). intuition lia.
Qed.
Lemma zsum_elt_le {A} (f : A -> Z) l x : (forall y, In y l -> 0 <= f y) -> In x l -> f x <= zsum (map f l).
Proof.
  induction l as [|y l IH]; [easy|]. intros Hn Hi. cbn [map zsum].
  assert (0 <= zsum (map f l)) by (apply zsum_map_nonneg; intros; apply Hn; now right).
  pose proof (Hn y (or_introl eq_refl)).
  destruct Hi as [->|Hi]; [lia|]. assert (f x <= zsum (map f l)) by (apply IH; [intros; apply Hn; now right|exact Hi]). lia.
Qed.
Lemma RT_record_specification m l : Forall wf_RecordSet l -> Forall rs_ok l -> recspec_size l < 65536 ->
  RT (w_record_specification m l) (p_record_specification m) l (recspec_size l) (recspec_size l).
Proof.
  intros Hw Hok Hs. pose proof (recspec_size_bound l Hw). pose proof (zlen_nonneg l).
  unfold w_record_specification, p_record_specification. rewrite Z.mod_small by lia.
  assert (Hb : forall r, In r l -> rs_size r < 65536).
  { intros r Hr. unfold recspec_size in Hs. enough (rs_size r <= zsum (map rs_size l)) by lia.
    apply zsum_elt_le; [|exact Hr]. intros y Hy. rewrite Forall_forall in Hw. pose proof (rs_size_bound y). specialize (Hw y Hy). intuition lia. }
  unfold recspec_size in *.
  eapply RT_conv.
  - eapply RT_bind; [apply RT_u32; range|]. eapply RT_bind.
    + apply RT_wmap_sum with (len := rs_size); [reflexivity| |lia].
      intros r Hr. rewrite Forall_forall in Hw, Hok. destruct (Hok r Hr) as (H1 & H2 & H3). apply RT_record_set; auto.
    + cbv beta. apply RT_pure_end, add16_ok. lia.
  - reflexivity.
  - lia.
  - lia.
Qed.
(* the sum over the record sets in [body_length], common/record_r/model.rs:41-52 *)
Definition len_record_sets (m : mode) (l : list RecordSet) : W Z :=
  wmap_sum m (fun r =>
    (n <- wmap_sum m (fun rec => wret (zlen rec mod 65536)) (rs_records r);;
     pl <- w_padded n 8;; add16 m 16 (pl_record pl mod 65536))%write) l.
Lemma len_record_sets_ok m l : Forall wf_RecordSet l -> Forall rs_ok l -> recspec_size l < 65536 ->
  len_record_sets m l = WOk [] (recspec_size l - 4).
Proof.
  intros Hw Hok Hs. unfold len_record_sets, recspec_size in *. rewrite Forall_forall in Hw, Hok.
  rewrite wmap_sum_pure with (len := rs_size); [f_equal; lia| |lia].
  intros r Hr. pose proof (rs_size_bound r (Hw r Hr)). split; [|lia].
  assert (Hb : rs_size r <= zsum (map rs_size l)).
  { apply zsum_elt_le; [|exact Hr]. intros y Hy. pose proof (rs_size_bound y (Hw y Hy)). lia. }
  destruct (Hok r Hr) as (Hu & Hl & Hc). destruct (Hw r Hr) as (_ & _ & Hl16 & _).
  unfold rs_size in *. cbv zeta in *. pose proof (rs_records_total r Hu) as Ht.
  set (n := rs_length_bytes r * zlen (rs_records r)) in *.
  assert (0 <= n) by (unfold n; pose proof (zlen_nonneg (rs_records r)); unfold u16 in Hl16; nia).
  pose proof (pad_to_bound n 8).
  rewrite wmap_sum_pure with (len := @zlen Z); [| |rewrite Ht; lia].
  - rewrite Ht. unfold wbind at 1. rewrite w_padded_ok by lia. unfold wbind. cbn [pl_record].
    rewrite Z.mod_small by lia. rewrite add16_ok by lia. cbn [app]. f_equal. lia.
  - intros x Hx. split; [|apply zlen_nonneg]. unfold wret. f_equal. apply Z.mod_small.
    pose proof (zlen_nonneg x). destruct Hu as [Hu _]. rewrite Forall_forall in Hu. rewrite (Hu x Hx). unfold u16 in Hl16. lia.
Qed.

(** * RecordQuerySpecification *)
(* common/record_query_r/parser.rs:36-42 *)
Definition p_record_query_specification : bparser (list Z) :=
  (n <- be_u32;; l <- count be_u32 n;; pret l)%parse.
(* common/record_query_r/writer.rs:21-32 *)
Definition w_record_query_specification (m : mode) (l : list Z) : W Z :=
  (put_u32 (zlen l mod 4294967296);; n <- wmap_sum m w_u32_elt l;; add16 m 4 n)%write.
Lemma RT_record_query_specification m l : Forall u32 l -> 4 + 4 * zlen l < 65536 ->
  RT (w_record_query_specification m l) p_record_query_specification l (4 + 4 * zlen l) (4 + 4 * zlen l).
Proof.
  intros Hw Hs. pose proof (zlen_nonneg l). unfold w_record_query_specification, p_record_query_specification.
  rewrite Z.mod_small by lia.
  eapply RT_conv.
  - eapply RT_bind; [apply RT_u32; range|]. eapply RT_bind; [apply RT_u32s; auto; lia|].
    cbv beta. apply RT_pure_end, add16_ok. lia.
  - reflexivity.
  - lia.
  - lia.
Qed.
Lemma Ext_record_query_specification : Ext p_record_query_specification.
Proof. unfold p_record_query_specification; ext. Qed.
Global Hint Resolve Ext_record_query_specification : ext.
Lemma Safe_record_query_specification : Safe p_record_query_specification.
Proof. unfold p_record_query_specification; safe. Qed.
Global Hint Resolve Safe_record_query_specification : safe.

(** * Relationship, NamedLocationId (is part of) *)
(* common/is_part_of/model.rs:56-59, 75-78 *)
Record Relationship := MkRelationship { re_nature : Z; re_position : Z }.
Record NamedLocationId := MkNamedLocationId { nl_name : Z; nl_number : Z }.
Definition wf_Relationship r := u16 (re_nature r) /\ u16 (re_position r).
Definition wf_NamedLocationId r := u16 (nl_name r) /\ u16 (nl_number r).
(* common/is_part_of/parser.rs:25-34, 36-44 *)
Definition p_relationship : bparser Relationship := (n <- be_u16;; p <- be_u16;; pret (MkRelationship n p))%parse.
Definition p_named_location_id : bparser NamedLocationId := (n <- be_u16;; p <- be_u16;; pret (MkNamedLocationId n p))%parse.
(* common/is_part_of/writer.rs:17-24, 26-33 *)
Definition w_relationship (r : Relationship) : W Z := (put_u16 (re_nature r);; put_u16 (re_position r);; wret 4)%write.
Definition w_named_location (r : NamedLocationId) : W Z := (put_u16 (nl_name r);; put_u16 (nl_number r);; wret 4)%write.
Lemma RT_relationship r : wf_Relationship r -> RT (w_relationship r) p_relationship r 4 4.
Proof. destruct r; unfold wf_Relationship, w_relationship, p_relationship; cbn; intros; wfd. rt. Qed.
Lemma RT_named_location r : wf_NamedLocationId r -> RT (w_named_location r) p_named_location_id r 4 4.
Proof. destruct r; unfold wf_NamedLocationId, w_named_location, p_named_location_id; cbn; intros; wfd. rt. Qed.
Global Hint Resolve RT_relationship RT_named_location : rt.
Lemma Ext_relationship : Ext p_relationship. Proof. unfold p_relationship; ext. Qed.
Lemma Ext_named_location : Ext p_named_location_id. Proof. unfold p_named_location_id; ext. Qed.
Global Hint Resolve Ext_relationship Ext_named_location : ext.
Lemma Safe_relationship : Safe p_relationship. Proof. unfold p_relationship; safe. Qed.
Lemma Safe_named_location : Safe p_named_location_id. Proof. unfold p_named_location_id; safe. Qed.
Global Hint Resolve Safe_relationship Safe_named_location : safe.

(** * Tactics for PDU bodies *)
(** bounds on list lengths and sizes that lia needs *)
Ltac pose_once t := let T := type of t in
  match goal with H : T |- _ => fail 1 | _ => pose proof t end.
Ltac pdu_facts :=
  repeat match goal with
  | |- context [zlen ?l] => pose_once (zlen_nonneg l)
  | H : context [zlen ?l] |- _ => pose_once (zlen_nonneg l)
  | H : context [vds_size ?l] |- _ => pose_once (vds_size_bound l)
  | H : Forall wf_RecordSet ?l |- _ => pose_once (recspec_size_bound l H)
  | H : context [vds_size ?l] |- _ => pose_once (zlen_nonneg l)
  | H : context [recspec_size ?l] |- _ => pose_once (zlen_nonneg l)
  end.
Ltac pdu_mods :=
  repeat match goal with
  | |- context [(?a) mod ?k] => rewrite (Z.mod_small a k) by lia
  end.
Ltac side := first [reflexivity | assumption | lia].
Ltac pdu_step :=
  match goal with
  | |- RT (wbind (wmap_sum _ w_fixed_datum _) _) (pbind (count _ _) _) _ _ _ => eapply RT_bind; [apply RT_fixed_datums; side|]; cbv beta
  | |- RT (wbind (wmap_sum _ (w_variable_datum _) _) _) (pbind (count _ _) _) _ _ _ => eapply RT_bind; [apply RT_variable_datums; side|]; cbv beta
  | |- RT (wbind (wmap_sum _ w_supply_quantity _) _) (pbind (count _ _) _) _ _ _ => eapply RT_bind; [apply RT_supplies; side|]; cbv beta
  | |- RT (wbind (wmap_sum _ w_u32_elt _) _) (pbind (count _ _) _) _ _ _ => eapply RT_bind; [apply RT_u32s; side|]; cbv beta
  | |- RT (wbind (wmap_sum _ (w_variable_parameter _) _) _) (pbind (count _ _) _) _ _ _ => eapply RT_bind; [apply RT_vps; side|]; cbv beta
  | |- RT (wbind (w_record_specification _ _) _) (pbind (p_record_specification _) _) _ _ _ => eapply RT_bind; [apply RT_record_specification; side|]; cbv beta
  | |- RT (wbind (w_record_query_specification _ _) _) (pbind p_record_query_specification _) _ _ _ => eapply RT_bind; [apply RT_record_query_specification; side|]; cbv beta
  | |- RT _ (pbind p_datum_specification _) _ _ _ => unfold p_datum_specification at 1
  | |- RT _ (pbind (pbind _ _) _) _ _ _ => apply RT_passoc; cbv beta
  | |- RT _ (pbind (pret _) _) _ _ _ => apply RT_pret_bind; cbv beta; cbn [ds_fixed ds_variable]
  | |- RT _ (pbind (count _ 0) _) _ _ _ => apply RT_count0; cbv beta
  | |- RT (add16 _ _ _) (pret _) _ _ _ => apply RT_pure_end, add16_ok; lia
  | _ => rt_step
  end.
Ltac pdu_rt :=
  pdu_facts; pdu_mods;
  eapply RT_conv; [repeat pdu_step | try reflexivity | try reflexivity; try lia | try reflexivity; try lia].
Ltac pdu_len :=
  pdu_facts; pdu_mods;
  rewrite ?mul16_ok by lia; rewrite ?len_variable_datums_ok by lia; rewrite ?len_record_sets_ok by (assumption || lia);
  unfold wbind, wret;
  repeat (rewrite add16_ok by lia); cbn [app]; f_equal; lia.

(** * The PDU header and the PDU status octet

    Models dis-rs/src/common/parser.rs:143-190, 315-326,
    dis-rs/src/common/writer.rs:10-31, dis-rs/src/common/model.rs:95-158,
    dis-rs/src/v7/{parser,writer,builder,model}.rs.  Enumerated values are raw
    integers (see EnumGen.v for the conversions). *)
From Coq Require Import ZArith List Lia Bool.
From Verif Require Import Base DisCommon.
Import ListNotations. Open Scope Z_scope.

(** ** PDU status (v7/model.rs:6-33) *)
Record PduStatus := MkPduStatus {
  st_tei : option Z; st_lvc : option Z; st_cei : option Z; st_fti : option Z; st_dti : option Z;
  st_rai : option Z; st_iai : option Z; st_ism : option Z; st_aii : option Z }.

(** v7/model.rs:20-33 *)
Definition default_status := MkPduStatus None None None None None None None None None.

(** v7/parser.rs:66-110, constants.rs:24-33 *)
Definition status_tei (b : Z) := Z.land b 0x01.
Definition status_lvc (b : Z) := Z.shiftr (Z.land b 0x06) 1.
Definition status_cei (b : Z) := Z.shiftr (Z.land b 0x08) 3.
Definition status_fti (b : Z) := Z.shiftr (Z.land b 0x10) 4.
Definition status_dti (b : Z) := Z.shiftr (Z.land b 0x30) 4.
Definition status_rai (b : Z) := Z.shiftr (Z.land b 0x30) 4.
Definition status_iai (b : Z) := Z.shiftr (Z.land b 0x30) 4.
Definition status_ism (b : Z) := Z.shiftr (Z.land b 0x10) 4.
Definition status_aii (b : Z) := Z.shiftr (Z.land b 0x20) 5.

(** v7/builder.rs *)
Definition build_cei_lvc_tei c l t := MkPduStatus (Some t) (Some l) (Some c) None None None None None None.
Definition build_fti_cei_lvc f c l := MkPduStatus None (Some l) (Some c) (Some f) None None None None None.
Definition build_dti_cei_lvc d c l := MkPduStatus None (Some l) (Some c) None (Some d) None None None None.
Definition build_cei_lvc c l := MkPduStatus None (Some l) (Some c) None None None None None None.
Definition build_rai_cei_lvc_tei r c l t := MkPduStatus (Some t) (Some l) (Some c) None None (Some r) None None None.
Definition build_aii_ism_cei_lvc_tei a i c l t := MkPduStatus (Some t) (Some l) (Some c) None None None None (Some i) (Some a).
Definition build_iai_cei_lvc_tei i c l t := MkPduStatus (Some t) (Some l) (Some c) None None None (Some i) None None.
Definition build_lvc l := MkPduStatus None (Some l) None None None None None None None.

(** A Rust range pattern [a..=b]. *)
Definition rng (a b x : Z) : bool := (a <=? x) && (x <=? b).

(** parse_pdu_status_fields, v7/parser.rs:25-64 *)
Definition parse_status (ty b : Z) : PduStatus :=
  let tei := status_tei b in let lvc := status_lvc b in let cei := status_cei b in
  let fti := status_fti b in let dti := status_dti b in let rai := status_rai b in
  let iai := status_iai b in let ism := status_ism b in let aii := status_aii b in
  if ty =? 1 then build_cei_lvc_tei cei lvc tei
  else if ty =? 2 then build_fti_cei_lvc fti cei lvc
  else if ty =? 3 then build_dti_cei_lvc dti cei lvc
  else if rng 4 22 ty then build_cei_lvc cei lvc
  else if ty =? 23 then build_cei_lvc_tei cei lvc tei
  else if ty =? 24 then build_cei_lvc_tei cei lvc tei
  else if ty =? 25 then build_rai_cei_lvc_tei rai cei lvc tei
  else if ty =? 26 then build_rai_cei_lvc_tei rai cei lvc tei
  else if ty =? 27 then build_rai_cei_lvc_tei rai cei lvc tei
  else if ty =? 28 then build_aii_ism_cei_lvc_tei aii ism cei lvc tei
  else if rng 29 30 ty then build_cei_lvc cei lvc
  else if ty =? 31 then build_iai_cei_lvc_tei iai cei lvc tei
  else if ty =? 32 then build_iai_cei_lvc_tei iai cei lvc tei
  else if rng 33 40 ty then build_cei_lvc cei lvc
  else if ty =? 41 then build_cei_lvc_tei cei lvc tei
  else if rng 42 66 ty then build_cei_lvc cei lvc
  else if ty =? 67 then build_cei_lvc_tei cei lvc tei
  else if ty =? 68 then build_cei_lvc cei lvc
  else if ty =? 69 then build_cei_lvc cei lvc
  else if ty =? 70 then build_cei_lvc cei lvc
  else if ty =? 71 then build_cei_lvc cei lvc
  else if ty =? 72 then build_lvc lvc
  else default_status.

(** [u8::from(x) << k] on an optional indicator, 0 when absent (v7/writer.rs:8-34) *)
Definition ind_bits (o : option Z) (k : Z) : Z :=
  match o with Some v => Z.shiftl v k mod 256 | None => 0 end.

(** serialize_pdu_status, v7/writer.rs:7-66 and the combine_* functions below it *)
Definition write_status (ty : Z) (s : PduStatus) : Z :=
  let tei := ind_bits (st_tei s) 0 in let lvc := ind_bits (st_lvc s) 1 in let cei := ind_bits (st_cei s) 3 in
  let fti := ind_bits (st_fti s) 4 in let dti := ind_bits (st_dti s) 4 in let rai := ind_bits (st_rai s) 4 in
  let iai := ind_bits (st_iai s) 4 in let ism := ind_bits (st_ism s) 4 in let aii := ind_bits (st_aii s) 5 in
  if ty =? 1 then Z.lor (Z.lor cei lvc) tei
  else if ty =? 2 then Z.lor (Z.lor fti cei) lvc
  else if ty =? 3 then Z.lor (Z.lor dti cei) lvc
  else if rng 4 22 ty then Z.lor cei lvc
  else if ty =? 23 then Z.lor (Z.lor cei lvc) tei
  else if ty =? 24 then Z.lor (Z.lor cei lvc) tei
  else if ty =? 25 then Z.lor (Z.lor (Z.lor rai cei) lvc) tei
  else if ty =? 26 then Z.lor (Z.lor (Z.lor rai cei) lvc) tei
  else if ty =? 27 then Z.lor (Z.lor (Z.lor rai cei) lvc) tei
  else if ty =? 28 then Z.lor (Z.lor (Z.lor (Z.lor aii ism) cei) lvc) tei
  else if rng 29 30 ty then Z.lor cei lvc
  else if ty =? 31 then Z.lor (Z.lor (Z.lor iai cei) lvc) tei
  else if ty =? 32 then Z.lor (Z.lor (Z.lor iai cei) lvc) tei
  else if rng 33 40 ty then Z.lor cei lvc
  else if ty =? 41 then Z.lor (Z.lor cei lvc) tei
  else if rng 42 66 ty then Z.lor cei lvc
  else if ty =? 67 then Z.lor (Z.lor cei lvc) tei
  else if ty =? 68 then Z.lor cei lvc
  else if ty =? 69 then Z.lor cei lvc
  else if ty =? 70 then Z.lor cei lvc
  else if ty =? 71 then Z.lor cei lvc
  else if ty =? 72 then lvc
  else 0.

(** *** Specification of the status octet (IEEE 1278.1-2012, 6.2.67):
    which indicators a PDU type carries, at which bit and how wide. *)
Inductive Indicator := TEI | LVC | CEI | FTI | DTI | RAI | IAI | ISM | AII.
Definition all_indicators := [TEI; LVC; CEI; FTI; DTI; RAI; IAI; ISM; AII].

Definition ind_pos (i : Indicator) : Z :=
  match i with TEI => 0 | LVC => 1 | CEI => 3 | FTI | DTI | RAI | IAI | ISM => 4 | AII => 5 end.
Definition ind_width (i : Indicator) : Z :=
  match i with LVC | DTI | RAI | IAI => 2 | _ => 1 end.
Definition ind_get (i : Indicator) (s : PduStatus) : option Z :=
  match i with TEI => st_tei s | LVC => st_lvc s | CEI => st_cei s | FTI => st_fti s | DTI => st_dti s
             | RAI => st_rai s | IAI => st_iai s | ISM => st_ism s | AII => st_aii s end.
Definition in_list (x : Z) (l : list Z) : bool := existsb (Z.eqb x) l.
Definition carries (ty : Z) (i : Indicator) : bool :=
  match i with
  | LVC => rng 1 72 ty
  | CEI => rng 1 71 ty
  | TEI => in_list ty [1; 23; 24; 25; 26; 27; 28; 31; 32; 41; 67]
  | FTI => ty =? 2
  | DTI => ty =? 3
  | RAI => rng 25 27 ty
  | ISM | AII => ty =? 28
  | IAI => rng 31 32 ty
  end.
(** A status is well formed for a type when it holds exactly the indicators of
    that type, each within its bit width. *)
Definition status_ok (ty : Z) (s : PduStatus) : Prop :=
  forall i, match ind_get i s with
            | Some v => carries ty i = true /\ 0 <= v < 2 ^ ind_width i
            | None => carries ty i = false
            end.
(** The bits of the status octet a type uses. *)
Definition used_bit (ty k : Z) : bool :=
  existsb (fun i => carries ty i && (ind_pos i <=? k) && (k <? ind_pos i + ind_width i)) all_indicators.

(** ** Header *)
Record PduHeader := MkPduHeader {
  h_version : Z; h_exercise : Z; h_type : Z; h_family : Z; h_time : Z; h_length : Z;
  h_status : option PduStatus; h_padding : Z }.

(** parse_pdu_status, v7/parser.rs:8-20 *)
Definition p_status (ty : Z) : bparser (option PduStatus * Z) :=
  (s <- be_u8;; pad <- be_u8;; pret (Some (parse_status ty s), pad))%parse.

(** pdu_header, common/parser.rs:143-184 *)
Definition p_header : bparser PduHeader :=
  (v <- be_u8;; e <- be_u8;; ty <- be_u8;; f <- be_u8;; t <- be_u32;; l <- be_u16;;
   sp <- (if rng 1 5 v then (pad <- be_u16;; pret (None, pad))
          else if v =? 6 then (pad <- be_u16;; pret (None, pad))
          else if v =? 7 then p_status ty
          else p_status ty);;
   pret (MkPduHeader v e ty f t l (fst sp) (snd sp)))%parse.

(** Serialize for PduHeader, common/writer.rs:10-31 *)
Definition w_header (h : PduHeader) : W Z :=
  (_ <- put_u8 (h_version h);; _ <- put_u8 (h_exercise h);; _ <- put_u8 (h_type h);; _ <- put_u8 (h_family h);;
   _ <- put_u32 (h_time h);; _ <- put_u16 (h_length h);;
   _ <- (if h_version h =? 7 then
           match h_status h with
           | Some s => (_ <- put_u8 (write_status (h_type h) s);; put_u8 0)
           | None => put_u16 0
           end
         else put_u16 0);;
   wret 12)%write.

(** skip_body, common/parser.rs:315-326 (u16::saturating_sub) *)
Definition p_skip_body (total : Z) : bparser (list Z) := take (Z.max 0 (total - 12)).
(** pdu_header_skip_body, common/parser.rs:186-190 *)
Definition p_header_skip : bparser PduHeader :=
  (h <- p_header;; _ <- p_skip_body (h_length h);; pret h)%parse.

(** ** Facts *)
Definition wf_PduStatus (s : PduStatus) : Prop := forall i v, ind_get i s = Some v -> u8 v.
Definition wf_PduHeader (h : PduHeader) : Prop :=
  u8 (h_version h) /\ u8 (h_exercise h) /\ u8 (h_type h) /\ u8 (h_family h) /\ u32 (h_time h) /\
  u16 (h_length h) /\ u16 (h_padding h).

(** The headers that survive a trip over the wire: padding is zero; versions 1 to 6
    carry no status; version 7 carries a status that is well formed for the type;
    other versions carry the status an all-zero octet stands for. *)
Definition fits_header (h : PduHeader) : Prop :=
  h_padding h = 0 /\
  if rng 1 6 (h_version h) then h_status h = None
  else if h_version h =? 7 then exists s, h_status h = Some s /\ status_ok (h_type h) s
  else h_status h = Some (parse_status (h_type h) 0).

Lemma rng_true a b x : rng a b x = true <-> a <= x <= b.
Proof. unfold rng. rewrite andb_true_iff, !Z.leb_le. tauto. Qed.
Lemma rng_false a b x : rng a b x = false <-> ~ (a <= x <= b).
Proof. rewrite <- not_true_iff_false, rng_true. tauto. Qed.

Lemma ind_bits_range o k : 0 <= ind_bits o k < 256.
Proof. unfold ind_bits. destruct o; [apply Z.mod_pos_bound|]; lia. Qed.

Lemma lor8 a b : 0 <= a < 256 -> 0 <= b < 256 -> 0 <= Z.lor a b < 256.
Proof.
  intros. split; [apply Z.lor_nonneg; lia|].
  destruct (Z.eq_dec (Z.lor a b) 0) as [->|]; [lia|].
  apply (Z.log2_lt_pow2 _ 8); [pose proof (Z.lor_nonneg a b); lia|].
  rewrite Z.log2_lor by lia.
  assert (forall x, 0 <= x < 256 -> Z.log2 x < 8).
  { intros x Hx. destruct (Z.eq_dec x 0) as [->|]; [reflexivity|]. apply Z.log2_lt_pow2; lia. }
  apply Z.max_lub_lt; auto.
Qed.

Lemma write_status_u8 ty s : 0 <= write_status ty s < 256.
Proof.
  unfold write_status. cbv zeta.
  repeat match goal with |- context [if ?c then _ else _] => destruct c end;
    repeat apply lor8; try apply ind_bits_range; lia.
Qed.

Ltac ty_cases ty :=
  repeat match goal with
  | |- context [ty =? ?k] => destruct (Z.eqb_spec ty k) as [->|?]
  | |- context [rng ?a ?b ty] => let E := fresh "E" in destruct (rng a b ty) eqn:E; [apply rng_true in E | apply rng_false in E]
  end.

Lemma below2 v : 0 <= v < 2 ^ 1 -> v = 0 \/ v = 1. Proof. change (2^1) with 2. lia. Qed.
Lemma below4 v : 0 <= v < 2 ^ 2 -> v = 0 \/ v = 1 \/ v = 2 \/ v = 3. Proof. change (2^2) with 4. lia. Qed.

Lemma parse_write_status ty s : status_ok ty s -> parse_status ty (write_status ty s) = s.
Proof.
  intros H.
  pose proof (H TEI) as H1. pose proof (H LVC) as H2. pose proof (H CEI) as H3. pose proof (H FTI) as H4.
  pose proof (H DTI) as H5. pose proof (H RAI) as H6. pose proof (H IAI) as H7. pose proof (H ISM) as H8. pose proof (H AII) as H9.
  clear H. destruct s as [t l c f d r i m a].
  cbn [ind_get st_tei st_lvc st_cei st_fti st_dti st_rai st_iai st_ism st_aii] in *.
  unfold carries, in_list, rng, existsb in H1, H2, H3, H4, H5, H6, H7, H8, H9.
  unfold parse_status, write_status; cbv zeta.
  cbn [ind_get st_tei st_lvc st_cei st_fti st_dti st_rai st_iai st_ism st_aii].
  ty_cases ty;
  (destruct t as [t|]; [try (exfalso; lia)|try (exfalso; lia)]);
  (destruct l as [l|]; [try (exfalso; lia)|try (exfalso; lia)]);
  (destruct c as [c|]; [try (exfalso; lia)|try (exfalso; lia)]);
  (destruct f as [f|]; [try (exfalso; lia)|try (exfalso; lia)]);
  (destruct d as [d|]; [try (exfalso; lia)|try (exfalso; lia)]);
  (destruct r as [r|]; [try (exfalso; lia)|try (exfalso; lia)]);
  (destruct i as [i|]; [try (exfalso; lia)|try (exfalso; lia)]);
  (destruct m as [m|]; [try (exfalso; lia)|try (exfalso; lia)]);
  (destruct a as [a|]; [try (exfalso; lia)|try (exfalso; lia)]);
  try reflexivity;
  cbn [ind_width] in *;
  repeat match goal with
  | H : _ /\ 0 <= _ < 2 ^ 1 |- _ => destruct H as [_ H]; apply below2 in H
  | H : _ /\ 0 <= _ < 2 ^ 2 |- _ => destruct H as [_ H]; apply below4 in H
  end;
  repeat match goal with H : _ \/ _ |- _ => destruct H end; subst; vm_compute; reflexivity.
Qed.

Definition octets : list Z := map Z.of_nat (seq 0 256).
Lemma forall_octet (f : Z -> bool) : forallb f octets = true -> forall b, 0 <= b < 256 -> f b = true.
Proof.
  intros H b Hb. rewrite forallb_forall in H. apply H. unfold octets. apply in_map_iff.
  exists (Z.to_nat b). split; [lia|]. apply in_seq. lia.
Qed.

Definition write_parse_check (ty b : Z) : bool :=
  forallb (fun k => Bool.eqb (Z.testbit (write_status ty (parse_status ty b)) k) (used_bit ty k && Z.testbit b k)) [0;1;2;3;4;5;6;7].
Lemma write_parse_check_all : forallb (fun ty => forallb (write_parse_check ty) octets) octets = true.
Proof. vm_compute. reflexivity. Qed.

Lemma write_parse_status ty b k : u8 ty -> u8 b -> 0 <= k < 8 ->
  Z.testbit (write_status ty (parse_status ty b)) k = used_bit ty k && Z.testbit b k.
Proof.
  intros Ht Hb Hk. pose proof (forall_octet _ write_parse_check_all ty Ht) as H.
  pose proof (forall_octet _ H b Hb) as H1. clear H. unfold write_parse_check in H1.
  rewrite forallb_forall in H1. assert (In k [0;1;2;3;4;5;6;7]) as Hin.
  { assert (k = 0 \/ k = 1 \/ k = 2 \/ k = 3 \/ k = 4 \/ k = 5 \/ k = 6 \/ k = 7) as Hd by lia. cbn [In]. intuition congruence. }
  apply H1 in Hin. now apply eqb_prop in Hin.
Qed.

Definition parse_ok_check (ty b : Z) : bool :=
  forallb (fun i => match ind_get i (parse_status ty b) with
                    | Some v => carries ty i && (0 <=? v) && (v <? 2 ^ ind_width i)
                                && (v =? (b / 2 ^ ind_pos i) mod 2 ^ ind_width i)
                    | None => negb (carries ty i) end) all_indicators.
Lemma parse_ok_check_all : forallb (fun ty => forallb (parse_ok_check ty) octets) octets = true.
Proof. vm_compute. reflexivity. Qed.

Lemma parse_ok_one ty b i : u8 ty -> u8 b ->
  match ind_get i (parse_status ty b) with
  | Some v => carries ty i && (0 <=? v) && (v <? 2 ^ ind_width i) && (v =? (b / 2 ^ ind_pos i) mod 2 ^ ind_width i)
  | None => negb (carries ty i) end = true.
Proof.
  intros Ht Hb. pose proof (forall_octet _ parse_ok_check_all ty Ht) as H.
  pose proof (forall_octet _ H b Hb) as H1. clear H. unfold parse_ok_check in H1. rewrite forallb_forall in H1.
  apply H1. destruct i; cbn [In all_indicators]; tauto.
Qed.

Lemma parse_status_value ty b i : u8 ty -> u8 b ->
  ind_get i (parse_status ty b) =
    if carries ty i then Some ((b / 2 ^ ind_pos i) mod 2 ^ ind_width i) else None.
Proof.
  intros Ht Hb. pose proof (parse_ok_one ty b i Ht Hb) as H. destruct (ind_get i (parse_status ty b)) eqn:E.
  - rewrite !andb_true_iff in H. destruct H as [[[H1 H2] H3] H4]. rewrite H1. apply Z.eqb_eq in H4. now rewrite H4 at 1.
  - apply negb_true_iff in H. now rewrite H.
Qed.

Lemma parse_status_ok ty b : u8 ty -> u8 b -> status_ok ty (parse_status ty b).
Proof.
  intros Ht Hb i. pose proof (parse_ok_one ty b i Ht Hb) as H. destruct (ind_get i (parse_status ty b)).
  - rewrite !andb_true_iff in H. split; [tauto|]. lia.
  - now apply negb_true_iff.
Qed.

Lemma RT_status_none : RT (put_u16 0) (pad <- be_u16;; pret (@None PduStatus, pad))%parse (None, 0) tt 2.
Proof. exists [0;0]. repeat split. Qed.
Lemma RT_status_future ty : RT (put_u16 0) (p_status ty) (Some (parse_status ty 0), 0) tt 2.
Proof. exists [0;0]. repeat split. Qed.
Lemma RT_status ty s : status_ok ty s ->
  RT (_ <- put_u8 (write_status ty s);; put_u8 0)%write (p_status ty) (Some s, 0) tt 2.
Proof.
  intros H. unfold p_status. eapply RT_conv; [eapply RT_bind; [apply RT_u8; apply write_status_u8|]; cbv beta| | |].
  - instantiate (1 := 1). instantiate (1 := tt). instantiate (1 := (Some s, 0)).
    rewrite parse_write_status by assumption. exists [0]. repeat split.
  - reflexivity.
  - reflexivity.
  - reflexivity.
Qed.

Lemma RT_header h : wf_PduHeader h -> fits_header h -> RT (w_header h) p_header h 12 12.
Proof.
  destruct h as [v e ty f t l s pad]. unfold wf_PduHeader, fits_header, w_header, p_header.
  cbn [h_version h_exercise h_type h_family h_time h_length h_status h_padding].
  intros (Hv & He & Hty & Hf & Ht & Hl & Hp) [-> Hs].
  eapply RT_conv; [
    eapply RT_bind; [apply RT_u8; exact Hv|]; eapply RT_bind; [apply RT_u8; exact He|];
    eapply RT_bind; [apply RT_u8; exact Hty|]; eapply RT_bind; [apply RT_u8; exact Hf|];
    eapply RT_bind; [apply RT_u32; exact Ht|]; eapply RT_bind; [apply RT_u16; exact Hl|];
    eapply RT_bind with (x1 := (s, 0)) (r1 := tt) (L1 := 2); [|apply RT_ret] | | | ]; try reflexivity.
  assert (rng 1 6 v = true -> v =? 7 = false) as Hn by (rewrite rng_true; lia).
  destruct (rng 1 6 v) eqn:E.
  - rewrite Hn by reflexivity. subst s.
    replace (if rng 1 5 v then _ else _) with (pad <- be_u16;; pret (@None PduStatus, pad))%parse.
    2:{ apply rng_true in E. destruct (rng 1 5 v) eqn:E5; [reflexivity|].
        apply rng_false in E5. replace v with 6 by lia. reflexivity. }
    apply RT_status_none.
  - apply rng_false in E. replace (rng 1 5 v) with false by (symmetry; apply rng_false; lia).
    replace (v =? 6) with false by lia.
    destruct (v =? 7) eqn:E7.
    + destruct Hs as (s0 & -> & Hok). now apply RT_status.
    + subst s. apply RT_status_future.
Qed.

Lemma Ext_header : Ext p_header.
Proof. unfold p_header, p_status. ext. Qed.
(** What a parsed header satisfies. *)
Definition parsed_header (h : PduHeader) : Prop :=
  wf_PduHeader h /\
  if rng 1 6 (h_version h) then h_status h = None
  else exists b, u8 b /\ h_status h = Some (parse_status (h_type h) b).
Lemma SafeP_header : SafeP p_header parsed_header.
Proof.
  unfold p_header, p_status. safe.
  eapply Safe_bind with (P := fun sp => u16 (snd sp) /\ if rng 1 6 a then fst sp = None else exists b, u8 b /\ fst sp = Some (parse_status a1 b)).
  - assert (Hf : rng 1 5 a = false -> a =? 6 = false -> rng 1 6 a = false).
    { rewrite !rng_false. unfold u8 in *. lia. }
    assert (Ht : rng 1 5 a = true -> rng 1 6 a = true) by (rewrite !rng_true; lia).
    assert (H6 : a =? 6 = true -> rng 1 6 a = true) by (rewrite !rng_true; lia).
    destruct (rng 1 5 a) eqn:E1; [rewrite Ht by reflexivity|destruct (a =? 6) eqn:E2;
      [rewrite H6 by reflexivity|rewrite Hf by reflexivity; destruct (a =? 7)]]; safe; cbn [fst snd];
      split; auto; try (unfold u8, u16 in *; lia); eexists; split; try reflexivity; assumption.
  - intros [s pad] [Hp Hs]. cbn [fst snd] in *. apply Safe_ret. unfold parsed_header, wf_PduHeader.
    cbn [h_version h_exercise h_type h_family h_time h_length h_status h_padding]. tauto.
Qed.
Lemma Safe_header : Safe p_header.
Proof. eapply Safe_of, SafeP_header. Qed.
Global Hint Resolve Ext_header : ext. Global Hint Resolve Safe_header : safe.

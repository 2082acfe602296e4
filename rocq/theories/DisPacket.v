(** * PDUs and packets: finalisation, serialisation, parsing

    Models dis-rs/src/common/model.rs:62-100, common/writer.rs:33-130,
    common/parser.rs:70-141, common/mod.rs:107-140, and the PduType to
    ProtocolFamily table of common/model.rs:553-640. *)
From Coq Require Import ZArith List Lia Bool.
From Verif Require Import Base DisCommon DisLists DisHeader DisPdu.
Import ListNotations. Open Scope Z_scope.

(** common/model.rs:62-66 *)
Record Pdu := MkPdu { pdu_header : PduHeader; pdu_body : PduBody }.

(** From<PduType> for ProtocolFamily, common/model.rs:553-640; an unspecified type number
    is also the family number. *)
Definition family_of (ty : Z) : Z :=
  if in_list ty [1; 4; 66; 67; 72] then 1
  else if in_list ty [2; 3; 68; 69] then 2
  else if rng 5 10 ty then 3
  else if in_list ty [25; 26; 27; 31; 32] then 4
  else if rng 11 22 ty then 5
  else if in_list ty [23; 24; 28; 29; 30] then 6
  else if rng 33 36 ty then 7
  else if rng 37 40 ty then 8
  else if rng 41 45 ty then 9
  else if rng 51 65 ty then 10
  else if rng 46 50 ty then 11
  else if in_list ty [70; 71] then 13
  else ty.

(** PduHeader::with_pdu_type / with_time_stamp / with_length, common/model.rs:135-150 *)
Definition with_pdu_type (h : PduHeader) (ty : Z) : PduHeader :=
  MkPduHeader (h_version h) (h_exercise h) ty (family_of ty) (h_time h) (h_length h) (h_status h) (h_padding h).
Definition with_time_stamp (h : PduHeader) (t : Z) : PduHeader :=
  MkPduHeader (h_version h) (h_exercise h) (h_type h) (h_family h) t (h_length h) (h_status h) (h_padding h).
Definition with_length (m : mode) (h : PduHeader) (body_len : Z) : W PduHeader :=
  (l <- add16 m 12 body_len;;
   wret (MkPduHeader (h_version h) (h_exercise h) (h_type h) (h_family h) (h_time h) l (h_status h) (h_padding h)))%write.

(** Pdu::finalize_from_parts, common/model.rs:69-78 *)
Definition finalize (m : mode) (h : PduHeader) (b : PduBody) (ts : Z) : W Pdu :=
  (n <- body_length m b;;
   h' <- with_length m (with_time_stamp (with_pdu_type h (body_type b)) ts) n;;
   wret (MkPdu h' b))%write.

(** Pdu::pdu_length, common/model.rs:80-82 *)
Definition pdu_length (m : mode) (p : Pdu) : W Z :=
  (n <- body_length m (pdu_body p);; add16 m 12 n)%write.

(** PduHeader::new, common/model.rs:110-122 *)
Definition header_new (version exercise ty : Z) : PduHeader :=
  MkPduHeader version exercise ty (family_of ty) 0 0 None 0.

(** Result of Pdu::serialize; the buffer is a BytesMut that already holds some octets and
    has some capacity.  BytesMut grows on demand, so the writes themselves never fail;
    what a panicking call leaves in the buffer is not modelled. *)
Inductive outcome := Written (n : Z) | InsufficientBufferSize (needed capacity : Z) | Panicked.

(** the header and body writes of Pdu::serialize, common/writer.rs:40-126 *)
Definition w_pdu (m : mode) (p : Pdu) : W Z :=
  (hs <- w_header (pdu_header p);; bs <- w_body m (h_version (pdu_header p)) (pdu_body p);; add16 m hs bs)%write.

(** Pdu::serialize, common/writer.rs:33-130 *)
Definition serialize (m : mode) (p : Pdu) (buf : list Z) (capacity : Z) : list Z * outcome :=
  match pdu_length m p with
  | WPanic => (buf, Panicked)
  | WOk _ len =>
    if capacity <? len then (buf, InsufficientBufferSize len capacity)
    else match w_pdu m p with
         | WPanic => (buf, Panicked)
         | WOk bs n => (buf ++ bs, Written n)
         end
  end.

(** pdu, common/parser.rs:124-141 *)
Definition p_pdu (m : mode) : bparser Pdu :=
  (h <- p_header;; b <- p_body m h;; pret (MkPdu h b))%parse.

(** Result of parsing a packet *)
Inductive result (A : Type) := Parsed (a : A) | ParseError | ParsePanic.
Arguments Parsed {A}. Arguments ParseError {A}. Arguments ParsePanic {A}.

(** parse_multiple_pdu and parse, common/parser.rs:70-75, common/mod.rs:107-115 *)
Definition parse (m : mode) (i : list Z) : result (list Pdu) :=
  match many1 zlen (p_pdu m) i with
  | POk _ l => Parsed l
  | PErr _ => ParseError
  | PPanic => ParsePanic
  end.
(** parse_pdu, common/parser.rs:78-83 *)
Definition parse_pdu (m : mode) (i : list Z) : result Pdu :=
  match p_pdu m i with POk _ p => Parsed p | PErr _ => ParseError | PPanic => ParsePanic end.
Definition filter_version (v : Z) (r : result (list Pdu)) : result (list Pdu) :=
  match r with Parsed l => Parsed (filter (fun p => h_version (pdu_header p) =? v) l) | e => e end.
(** parse_v6 / parse_v7, common/mod.rs:117-140 *)
Definition parse_v6 (m : mode) (i : list Z) := filter_version 6 (parse m i).
Definition parse_v7 (m : mode) (i : list Z) := filter_version 7 (parse m i).

(** Result of the header-only parsers *)
Inductive hresult (A : Type) :=
| HParsed (a : A) | HInsufficientHeader (n : Z) | HInsufficientPdu (needed available : Z) | HParseError.
Arguments HParsed {A}. Arguments HInsufficientHeader {A}. Arguments HInsufficientPdu {A}. Arguments HParseError {A}.

(** parse_header, common/parser.rs:102-122 ([as u16] truncates) *)
Definition parse_header (i : list Z) : hresult PduHeader :=
  match p_header i with
  | POk r h => match p_skip_body (h_length h) r with
               | POk _ _ => HParsed h
               | PErr Eof => HInsufficientPdu (h_length h - 12) (zlen r mod 65536)
               | _ => HParseError
               end
  | PErr Eof => HInsufficientHeader (zlen i mod 65536)
  | _ => HParseError
  end.
(** parse_multiple_header, common/parser.rs:86-99 *)
Definition parse_multiple_header (i : list Z) : hresult (list PduHeader) :=
  match many1 zlen p_header_skip i with
  | POk _ l => HParsed l
  | PErr Eof => HInsufficientHeader (zlen i mod 65536)
  | _ => HParseError
  end.

(** Interaction for Pdu, common/model.rs:84-92 *)
Definition originator (p : Pdu) := orig_body (pdu_body p).
Definition receiver (p : Pdu) := recv_body (pdu_body p).

(** ** PDUs that survive the wire *)
Definition wf_Pdu (p : Pdu) : Prop := wf_PduHeader (pdu_header p) /\ wf_body (pdu_body p).
Definition fits_Pdu (p : Pdu) : Prop := fits_header (pdu_header p) /\ fits_body (pdu_header p) (pdu_body p).
Definition size_pdu (p : Pdu) : Z := 12 + size_body (pdu_body p).

Lemma RT_pdu m p : wf_Pdu p -> fits_Pdu p ->
  0 <= size_pdu p + returned_excess (pdu_body p) < 65536 ->
  RT (w_pdu m p) (p_pdu m) p (size_pdu p + returned_excess (pdu_body p)) (size_pdu p).
Proof.
  intros [Wh Wb] [Fh Fb] Hb. unfold w_pdu, p_pdu, size_pdu in *. destruct p as [h b]; cbn [pdu_header pdu_body] in *.
  eapply RT_conv; [eapply RT_bind; [apply RT_header; assumption|]; eapply RT_bind; [apply RT_body; assumption|];
    apply RT_pure_end with (r := 12 + (size_body b + returned_excess b)); rewrite add16_ok by lia; reflexivity | | |]; try reflexivity; try lia.
Qed.

Lemma Ext_pdu m : Ext (p_pdu m).
Proof. unfold p_pdu. ext. Qed.

(** the header parser takes exactly twelve octets, and only fails for want of octets *)
Lemma p_header_short i : zlen i < 12 -> p_header i = PErr Eof.
Proof.
  unfold zlen. intros H.
  do 12 (destruct i as [|? i]; [
    unfold p_header, p_status, pbind, pret, be_u8, be_u16, be_u32, be_u; cbn [length Nat.ltb Nat.leb skipn firstn];
    repeat match goal with |- context [rng 1 5 ?c] => destruct (rng 1 5 c) | |- context [be_val ?c =? ?k] => destruct (be_val c =? k) end; reflexivity|]).
  exfalso. cbn [length] in H. lia.
Qed.

Lemma p_header_long i : 12 <= zlen i -> exists h, p_header i = POk (skipn 12 i) h.
Proof.
  unfold zlen. intros H.
  do 12 (destruct i as [|? i]; [exfalso; cbn [length] in H; lia|]).
  unfold p_header, p_status, pbind, pret, be_u8, be_u16, be_u32, be_u. cbn [length Nat.ltb Nat.leb skipn firstn].
  repeat match goal with |- context [rng 1 5 ?c] => destruct (rng 1 5 c) | |- context [be_val ?c =? ?k] => destruct (be_val c =? k) end; eexists; reflexivity.
Qed.

Lemma p_header_eof i k : p_header i = PErr k -> k = Eof /\ zlen i < 12.
Proof.
  intros H. destruct (Z_lt_ge_dec (zlen i) 12) as [Hl|Hl].
  - rewrite p_header_short in H by assumption. split; congruence.
  - destruct (p_header_long i) as [h E]; [lia|]. congruence.
Qed.
Lemma p_header_consumes i r h : p_header i = POk r h -> r = skipn 12 i /\ zlen i = zlen r + 12.
Proof.
  intros H. destruct (Z_lt_ge_dec (zlen i) 12) as [Hl|Hl].
  - rewrite p_header_short in H by assumption. discriminate.
  - destruct (p_header_long i) as [h' E]; [lia|]. rewrite E in H. assert (r = skipn 12 i) as Hr by congruence. split; [exact Hr|].
    unfold zlen in *. pose proof (skipn_length 12 i) as Hs. rewrite <- Hr in Hs. lia.
Qed.
Lemma p_header_nopanic i : p_header i <> PPanic.
Proof.
  destruct (Z_lt_ge_dec (zlen i) 12) as [Hl|Hl].
  - rewrite p_header_short by assumption. discriminate.
  - destruct (p_header_long i) as [h' E]; [lia|]. rewrite E. discriminate.
Qed.

Lemma Ext_len {A} (p : bparser A) i r a : Ext p -> p i = POk r a -> zlen r <= zlen i.
Proof. intros He H. destruct (He _ _ _ H) as [[c ->] _]. rewrite zlen_app. pose proof (zlen_nonneg c). lia. Qed.

Lemma p_pdu_consumes m i r p : p_pdu m i = POk r p -> zlen r + 12 <= zlen i.
Proof.
  unfold p_pdu, pbind. destruct (p_header i) as [r1 h| |] eqn:E; try discriminate.
  destruct (p_body m h r1) as [r2 b| |] eqn:E2; try discriminate. intros H. inversion H; subst.
  apply p_header_consumes in E. apply (Ext_len _ _ _ _ (Ext_body m h)) in E2. lia.
Qed.

(** ** Splitting a packet, specified without many1: parse PDUs one after the other until
    the remaining octets no longer start with one. *)
Inductive Split {E A} (p : parser (list E) A) : list E -> list A -> list E -> Prop :=
| Split_stop i k : p i = PErr k -> Split p i [] i
| Split_more i r a l rest : p i = POk r a -> Split p r l rest -> Split p i (a :: l) rest.
Inductive SplitPanic {E A} (p : parser (list E) A) : list E -> Prop :=
| SplitPanic_now i : p i = PPanic -> SplitPanic p i
| SplitPanic_later i r a : p i = POk r a -> SplitPanic p r -> SplitPanic p i.

Section Many.
  Context {E A : Type} (p : parser (list E) A).
  Hypothesis consumes : forall i r a, p i = POk r a -> zlen r < zlen i.
  Lemma many_loop_spec fuel : forall acc i, zlen i < Z.of_nat fuel ->
    match many_loop zlen p fuel acc i with
    | POk rest l => exists l', l = rev acc ++ l' /\ Split p i l' rest
    | PErr _ => False
    | PPanic => SplitPanic p i
    end.
  Proof.
    induction fuel as [|fuel IH]; intros acc i Hf; [pose proof (zlen_nonneg i); lia|].
    cbn [many_loop]. destruct (p i) as [r a|k|] eqn:E1.
    - pose proof (consumes _ _ _ E1) as Hc. replace (zlen r =? zlen i) with false by lia.
      specialize (IH (a :: acc) r ltac:(lia)). destruct (many_loop zlen p fuel (a :: acc) r) as [rest l| |] eqn:E2.
      + destruct IH as (l' & -> & Hs). exists (a :: l'). split; [cbn [rev]; now rewrite <- app_assoc|]. econstructor; eassumption.
      + exact IH.
      + econstructor 2; eassumption.
    - exists []. rewrite app_nil_r. split; [reflexivity|]. econstructor; eassumption.
    - now constructor.
  Qed.
  Lemma many1_spec i :
    match many1 zlen p i with
    | POk rest l => l <> [] /\ Split p i l rest
    | PErr k => p i = PErr k
    | PPanic => SplitPanic p i
    end.
  Proof.
    unfold many1. destruct (p i) as [r a|k|] eqn:E1; [|reflexivity|now constructor].
    pose proof (many_loop_spec (S (Z.to_nat (zlen r))) [a] r) as H.
    pose proof (zlen_nonneg r). specialize (H ltac:(lia)). destruct (many_loop _ _ _ _ _).
    - destruct H as (l' & -> & Hs). cbn [rev app]. split; [discriminate|]. econstructor; eassumption.
    - contradiction.
    - econstructor 2; eassumption.
  Qed.
  Lemma Split_fun i l r l' r' : Split p i l r -> Split p i l' r' -> l = l' /\ r = r'.
  Proof.
    intros H. revert l' r'. induction H; intros l' r' H'; inversion H'; subst; try congruence; auto.
    rewrite H in H1. inversion H1; subst. destruct (IHSplit _ _ H2). split; congruence.
  Qed.
  Lemma Split_nopanic i l r : Split p i l r -> SplitPanic p i -> False.
  Proof. induction 1; intros Hp; inversion Hp; subst; try congruence. Qed.
  Lemma many1_complete i l rest : l <> [] -> Split p i l rest -> many1 zlen p i = POk rest l.
  Proof.
    intros Hne Hs. pose proof (many1_spec i) as H. destruct (many1 zlen p i) as [r' l'|k|].
    - destruct H as [_ H]. destruct (Split_fun _ _ _ _ _ Hs H). congruence.
    - inversion Hs; subst; congruence.
    - destruct (Split_nopanic _ _ _ Hs H).
  Qed.
End Many.

Lemma p_pdu_lt m i r a : p_pdu m i = POk r a -> zlen r < zlen i.
Proof. intros H. apply p_pdu_consumes in H. lia. Qed.

Lemma parse_iff m i l : parse m i = Parsed l <-> l <> [] /\ exists rest, Split (p_pdu m) i l rest.
Proof.
  unfold parse. pose proof (many1_spec (p_pdu m) (p_pdu_lt m) i) as H. split.
  - destruct (many1 zlen (p_pdu m) i) as [r' l'|k|]; try discriminate. intros E; inversion E; subst. destruct H. eauto.
  - intros [Hne [rest Hs]]. now rewrite (many1_complete _ (p_pdu_lt m) _ _ _ Hne Hs).
Qed.
Lemma parse_error_iff m i : parse m i = ParseError <-> exists k, p_pdu m i = PErr k.
Proof.
  unfold parse. pose proof (many1_spec (p_pdu m) (p_pdu_lt m) i) as H. split.
  - destruct (many1 zlen (p_pdu m) i) as [r' l'|k|]; try discriminate. eauto.
  - intros [k Hk]. unfold many1. now rewrite Hk.
Qed.
Lemma parse_panic_iff m i : parse m i = ParsePanic <-> SplitPanic (p_pdu m) i.
Proof.
  unfold parse. pose proof (many1_spec (p_pdu m) (p_pdu_lt m) i) as H. split.
  - destruct (many1 zlen (p_pdu m) i) as [r' l'|k|]; try discriminate. auto.
  - intros Hp. destruct (many1 zlen (p_pdu m) i) as [r' l'|k|]; [| |reflexivity].
    + destruct H as [_ Hs]. destruct (Split_nopanic _ _ _ _ Hs Hp).
    + inversion Hp; congruence.
Qed.

(** ** Bounds *)
Lemma size_body_nonneg h b : wf_body b -> fits_body h b -> 0 <= size_body b.
Proof.
  intros Hw Hf. destruct (RT_body Wrapping h b Hw Hf) as (bs & _ & Hl & _). rewrite <- Hl. apply zlen_nonneg.
Qed.

(** no PDU longer than 65500 octets overflows the sixteen-bit sizes *)
Lemma excess_bounds h b : wf_body b -> fits_body h b -> 12 + size_body b <= 65500 ->
  0 <= 12 + size_body b + returned_excess b < 65536 /\ 0 <= 12 + size_body b + claimed_excess b < 65536.
Proof.
  intros Hw Hf Hs. pose proof (size_body_nonneg h b Hw Hf) as Hn.
  destruct b; cbn [returned_excess claimed_excess] in *; try lia.
  - cbn [size_body fits_body] in *. destruct Hf as [_ Hf]. unfold DisEntity.fits_entity_state in Hf. unfold DisEntity.size_entity_state in *.
    pose proof (zlen_nonneg (DisEntity.EntityState_variable_parameters x)). lia.
  - cbn [size_body] in *. unfold DisWarfare.size_fire in *. lia.
  - pose proof (DisIff.deficit_range x). lia.
  - cbn [size_body] in *. unfold DisEntity.size_aggregate_state in *.
    pose proof (DisEntity.ses_bounds x). pose proof (vds_size_bound (DisEntity.AggregateState_variable_datums x)).
    pose proof (zlen_nonneg (DisEntity.AggregateState_silent_entities x)).
    pose proof (zlen_nonneg (DisEntity.AggregateState_silent_aggregates x)).
    pose proof (zlen_nonneg (DisEntity.AggregateState_variable_datums x)).
    pose proof (pad_to_bound (DisEntity.agg_ids_size x) 4 ltac:(lia)).
    assert (0 <= DisEntity.agg_ids_size x) by (unfold DisEntity.agg_ids_size;
      pose proof (zlen_nonneg (DisEntity.AggregateState_aggregates x)); pose proof (zlen_nonneg (DisEntity.AggregateState_entities x)); lia).
    lia.
Qed.

(** ** Serialisation of a PDU that the wire can carry *)
Definition claimed_length (p : Pdu) : Z := size_pdu p + claimed_excess (pdu_body p).
Definition returned_length (p : Pdu) : Z := size_pdu p + returned_excess (pdu_body p).

Lemma pdu_length_ok m p : wf_Pdu p -> fits_Pdu p -> size_pdu p <= 65500 ->
  pdu_length m p = WOk [] (claimed_length p).
Proof.
  intros [_ Wb] [_ Fb] Hs. unfold size_pdu in Hs. pose proof (excess_bounds _ _ Wb Fb Hs) as [_ Hc]. unfold pdu_length.
  rewrite (body_length_ok m _ _ Wb Fb). unfold wbind. rewrite add16_ok by lia. unfold claimed_length, size_pdu. cbn [app].
  f_equal; lia.
Qed.

Lemma serialize_ok m p buf cap : wf_Pdu p -> fits_Pdu p -> size_pdu p <= 65500 -> claimed_length p <= cap ->
  exists bs, serialize m p buf cap = (buf ++ bs, Written (returned_length p)) /\
    zlen bs = size_pdu p /\ forall rest, p_pdu m (bs ++ rest) = POk rest p.
Proof.
  intros Hw Hf Hs Hc. unfold serialize. rewrite pdu_length_ok by assumption.
  replace (cap <? claimed_length p) with false by lia.
  destruct Hw as [Wh Wb]. destruct Hf as [Fh Fb]. pose proof (excess_bounds _ _ Wb Fb Hs) as [Hr _].
  destruct (RT_pdu m p) as (bs & E & Hl & Hp); [split; assumption|split; assumption|unfold size_pdu; lia|].
  exists bs. rewrite E. auto.
Qed.

Lemma serialize_small m p buf cap : wf_Pdu p -> fits_Pdu p -> size_pdu p <= 65500 -> cap < claimed_length p ->
  serialize m p buf cap = (buf, InsufficientBufferSize (claimed_length p) cap).
Proof.
  intros Hw Hf Hs Hc. unfold serialize. rewrite pdu_length_ok by assumption. now replace (cap <? claimed_length p) with true by lia.
Qed.

Lemma p_pdu_nil m k : k = Eof -> p_pdu m [] = PErr k.
Proof. intros ->. reflexivity. Qed.

(** octets a PDU serialises to *)
Definition wire (m : mode) (p : Pdu) : list Z := match w_pdu m p with WOk bs _ => bs | WPanic => [] end.

Lemma wire_ok m p : wf_Pdu p -> fits_Pdu p -> size_pdu p <= 65500 ->
  zlen (wire m p) = size_pdu p /\ forall rest, p_pdu m (wire m p ++ rest) = POk rest p.
Proof.
  intros [Wh Wb] [Fh Fb] Hs. pose proof (excess_bounds _ _ Wb Fb Hs) as [Hr _].
  destruct (RT_pdu m p) as (bs & E & Hl & Hp); [split; assumption|split; assumption|unfold size_pdu; lia|].
  unfold wire. rewrite E. auto.
Qed.

Lemma serialize_wire m p buf cap : wf_Pdu p -> fits_Pdu p -> size_pdu p <= 65500 -> claimed_length p <= cap ->
  serialize m p buf cap = (buf ++ wire m p, Written (returned_length p)).
Proof.
  intros Hw Hf Hs Hc. destruct (serialize_ok m p buf cap Hw Hf Hs Hc) as (bs & E & Hl & Hp).
  unfold wire. unfold serialize in E. rewrite pdu_length_ok in E by assumption.
  replace (cap <? claimed_length p) with false in E by lia. unfold serialize. rewrite pdu_length_ok by assumption.
  replace (cap <? claimed_length p) with false by lia. destruct (w_pdu m p) as [b n|]; [|discriminate].
  inversion E. reflexivity.
Qed.

Definition packet (m : mode) (l : list Pdu) : list Z := concat (map (wire m) l).
Lemma split_packet m l junk k : Forall (fun p => wf_Pdu p /\ fits_Pdu p /\ size_pdu p <= 65500) l ->
  p_pdu m junk = PErr k -> Split (p_pdu m) (packet m l ++ junk) l junk.
Proof.
  intros H Hj. induction H as [|p l (Hw & Hf & Hs) Hl IH].
  - econstructor; exact Hj.
  - unfold packet in *. cbn [map concat]. rewrite <- app_assoc.
    econstructor; [apply (proj2 (wire_ok m p Hw Hf Hs))|exact IH].
Qed.
Lemma parse_packet m l junk k : l <> [] -> Forall (fun p => wf_Pdu p /\ fits_Pdu p /\ size_pdu p <= 65500) l ->
  p_pdu m junk = PErr k -> parse m (packet m l ++ junk) = Parsed l.
Proof. intros Hn H Hj. apply parse_iff. split; [assumption|]. exists junk. eapply split_packet; eassumption. Qed.
